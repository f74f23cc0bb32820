(** Model of the descriptor objects that own a neighbour list:
    source/descriptor/deepmd/include/se.h, the members of [PairTildeR] and
    [TildeR] that are not static.  Row pointers are lists of lists; what is
    computed per neighbour is a parameter, as in TildeModel. *)
From Verif Require Export TildeModel.
Open Scope nat_scope.

(** nblist/include/neighborList.h:112-116 with the members of its supercell that
    the descriptor reads (structure.h, supercell.h): the lists of neighbours, the
    number of atoms of the primitive cell, which copy of it is the primitive one,
    and the positions and atomic numbers of the atoms of the supercell.
    neighborList.h:333-336: the number of centres is the number of lists. *)
Record nlobj := mknl { no_lists : list (list nat); no_prim : nat; no_cell : nat; no_x : list vec; no_types : list nat }.

(** se.h:598-610 [calc_num_center_atoms]: counted among the first atoms of the supercell. *)
Definition obj_centres (o : nlobj) (ca : nat) : result nat :=
  foldM (fun n ii => bind (get (no_types o) ii) (fun t => Ok (if t =? ca then n + 1 else n))) (seq 0 (no_prim o)) 0.

(** se.h:1575-1589 [calc_num_center_atoms_lst]: the same, over the lists. *)
Definition objs_centres (o : nlobj) (ca : nat) : result nat :=
  foldM (fun n jj => bind (get (no_types o) jj) (fun t => Ok (if t =? ca then n + 1 else n))) (seq 0 (length (no_lists o))) 0.

(** se.h:1602-1605 and neighborList.h:465-476: the neighbours of a species in one list. *)
Definition obj_typed (o : nlobj) (na jj : nat) : result nat :=
  bind (get (no_lists o) jj) (fun r =>
  foldM (fun k kk => bind (get r kk) (fun idx => bind (get (no_types o) idx) (fun t => Ok (if t =? na then k + 1 else k)))) (seq 0 (length r)) 0).

(** neighborList.h:454-485 [get_max_num_neigh_atoms_ssss], se.h:742-744. *)
Definition obj_max (o : nlobj) (ca na : nat) : result nat :=
  foldM (fun m ii => bind (get (no_types o) ii) (fun t =>
    if t =? ca then bind (obj_typed o na ii) (fun k => Ok (if m <? k then k else m)) else Ok m)) (seq 0 (length (no_lists o))) 0.

(** se.h:1593-1611 [calc_num_neigh_atoms_lst], one entry. *)
Definition objs_max (o : nlobj) (na : nat) : result nat :=
  foldM (fun m jj => bind (obj_typed o na jj) (fun k => Ok (if m <? k then k else m))) (seq 0 (length (no_lists o))) 0.

Section Obj.
Context {V : Type}.
Variables (row : vec -> V) (zero : V) (o : nlobj).

(** se.h:806-838, 1030-1101: one neighbour. *)
Definition obj_neigh (na : nat) (pc : vec) (ii cidx : nat) (st : list (list V) * nat) (jj : nat) : result (list (list V) * nat) :=
  let '(a, nidx) := st in
  bind (get (no_lists o) ii) (fun r => bind (get r jj) (fun idx => bind (get (no_types o) idx) (fun t =>
  if negb (t =? na) then Ok (a, nidx)
  else bind (get (no_x o) idx) (fun pn =>
       bind (get a cidx) (fun arow =>
       bind (set arow nidx (row (vsub pn pc))) (fun arow' =>
       bind (set a cidx arow') (fun a' => Ok (a', nidx + 1)))))))).

(** se.h:797-841, 1022-1103: one centre.  Nothing is compared with the room there is. *)
Definition obj_centre (ca na : nat) (st : list (list V) * nat) (ii : nat) : result (list (list V) * nat) :=
  let '(a, cidx) := st in
  let c := ii + no_cell o * no_prim o in
  bind (get (no_x o) c) (fun pc => bind (get (no_types o) c) (fun t =>
  if negb (t =? ca) then Ok (a, cidx)
  else bind (get (no_lists o) ii) (fun r =>
       bind (foldM (obj_neigh na pc ii cidx) (seq 0 (length r)) (a, 0)) (fun st' => Ok (fst st', cidx + 1))))).

(** se.h:754-850 [PairTildeR::generate], which ends with an assertion on the
    number of rows ([true]), and 977-1109 [PairTildeR::deriv], which does not ([false]). *)
Definition obj_pair (asserts : bool) (ca na nc nn : nat) : result (list (list V)) :=
  bind (foldM (obj_centre ca na) (seq 0 (length (no_lists o))) (repeat (repeat zero nn) nc, 0)) (fun st =>
  if asserts && negb (snd st =? nc) then Err AssertionError else Ok (fst st)).

(** se.h:451-466, 521-541: an object made with a reservation, then asked for its
    values or derivatives. *)
Definition pair_reserved (asserts : bool) (ca na nn : nat) : result (list (list V)) :=
  bind (obj_centres o ca) (fun nc => obj_pair asserts ca na nc nn).

(** se.h:496-506, 557-575: an object made without. *)
Definition pair_automatic (asserts : bool) (ca na : nat) : result (list (list V)) :=
  bind (obj_centres o ca) (fun nc => bind (obj_max o ca na) (fun nn => obj_pair asserts ca na nc nn)).

(** se.h:1759-1857 [TildeR::generate] and 2106-2206 [TildeR::deriv], for the
    counts [ncl] and reservations [nnl] of the object.  [None] is memory that is
    allocated; that of [deriv] is also set to zero, which is not modelled. *)
Definition objs_table (asserts : bool) (centres neighs ncl nnl : list nat) : result (list (list (option V))) :=
  foldM (fun a ii => foldM (fun a jj =>
    bind (get centres ii) (fun ca => bind (get neighs jj) (fun na => bind (get nnl jj) (fun nn => bind (get ncl ii) (fun nc =>
    bind (get (starts ncl) ii) (fun cs => bind (get (starts nnl) jj) (fun ns =>
    bind (obj_pair asserts ca na nc nn) (fun p => copy_block nc nn cs ns p a)))))))) (seq 0 (length neighs)) a)
    (seq 0 (length centres)) (repeat (repeat None (width nnl)) (width ncl)).

(** The constructors that take reservations and those that do not (se.h:1307-1479). *)
Definition objs_reserved (asserts : bool) (centres neighs nnl : list nat) : result (list (list (option V))) :=
  bind (mapM (objs_centres o) centres) (fun ncl => objs_table asserts centres neighs ncl nnl).
Definition objs_automatic (asserts : bool) (centres neighs : list nat) : result (list (list (option V))) :=
  bind (mapM (objs_centres o) centres) (fun ncl => bind (mapM (objs_max o) neighs) (fun nnl => objs_table asserts centres neighs ncl nnl)).
End Obj.
