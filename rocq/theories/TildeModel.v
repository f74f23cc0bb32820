(** Model of the block assembly of the smooth-edition descriptor:
    source/descriptor/deepmd/include/se.h, the static functions used from other
    programs.  Row pointers are lists of lists. *)
From Verif Require Export Arr SeModel SlotModel.
Open Scope nat_scope.

Section Tilde.
(** What is stored per neighbour (4 values, or 4 times 3 derivatives), and the
    value of an empty place: se.h:896 / 1147 allocate with zeros. *)
Context {V : Type}.
Variables (row : vec -> V) (zero : V).
Variables (inum : nat) (ilist numneigh : list nat) (firstneigh : list (list nat)) (x : list vec) (types : list nat).

(** se.h:890-895, 1142-1146; also 1883-1889: count the centres of a type. *)
Definition num_centres (ca : nat) : result nat :=
  foldM (fun n ii => bind (get ilist ii) (fun c => bind (get types c) (fun t => Ok (if t =? ca then n + 1 else n)))) (seq 0 inum) 0.

(** se.h:905-909: count the neighbours of a type of one centre. *)
Definition num_typed (na ii : nat) : result nat :=
  bind (get numneigh ii) (fun n =>
  foldM (fun k jj => bind (get firstneigh ii) (fun r => bind (get r jj) (fun idx => bind (get types idx) (fun t =>
    Ok (if t =? na then k + 1 else k))))) (seq 0 n) 0).

(** se.h:899-914, 1156-1172. *)
Definition max_typed (ca na : nat) : result nat :=
  foldM (fun m ii => bind (get ilist ii) (fun c => bind (get types c) (fun t =>
    if t =? ca then bind (num_typed na ii) (fun k => Ok (if m <? k then k else m)) else Ok m))) (seq 0 inum) 0.

(** se.h:938-958, 1186-1262: one pass of the inner loop. *)
Definition pair_neigh (na : nat) (pc : vec) (ii cidx : nat) (st : list (list V) * nat) (jj : nat) : result (list (list V) * nat) :=
  let '(a, nidx) := st in
  bind (get firstneigh ii) (fun r => bind (get r jj) (fun idx => bind (get types idx) (fun t =>
  if negb (t =? na) then Ok (a, nidx)
  else bind (get x idx) (fun pn =>
       bind (get a cidx) (fun arow =>
       bind (set arow nidx (row (vsub pn pc))) (fun arow' =>
       bind (set a cidx arow') (fun a' => Ok (a', nidx + 1)))))))).

(** se.h:926-963, 1177-1264: one pass of the outer loop. *)
Definition pair_centre (ca na nn mx : nat) (st : list (list V) * nat) (ii : nat) : result (list (list V) * nat) :=
  let '(a, cidx) := st in
  bind (get ilist ii) (fun c => bind (get x c) (fun pc => bind (get types c) (fun t =>
  if negb (t =? ca) then Ok (a, cidx)
  else if nn <? mx then Err AssertionError
  else bind (get numneigh ii) (fun n =>
       bind (foldM (pair_neigh na pc ii cidx) (seq 0 n) (a, 0)) (fun st' => Ok (fst st', cidx + 1)))))).

(** se.h:853-968 [PairTildeR::generate] and 1116-1271 [PairTildeR::deriv] (static). *)
Definition pair_generate (ca na nn : nat) : result (list (list V)) :=
  bind (num_centres ca) (fun nc =>
  bind (max_typed ca na) (fun mx =>
  bind (foldM (pair_centre ca na nn mx) (seq 0 inum) (repeat (repeat zero nn) nc, 0)) (fun st => Ok (fst st)))).

(** se.h:1945-1957, 2066-2078, 2340-2370: copy one block to its place. *)
Definition copy_block (nc nn cs ns : nat) (p : list (list V)) (a : list (list (option V))) : result (list (list (option V))) :=
  foldM (fun a kk => foldM (fun a ll =>
    bind (get p kk) (fun pr => bind (get pr ll) (fun v =>
    bind (get a (cs + kk)) (fun arow => bind (set arow (ns + ll) (Some v)) (fun arow' => set a (cs + kk) arow'))))) (seq 0 nn) a) (seq 0 nc) a.

(** se.h:1862-1981 [TildeR::generate], also 1985-2096 and 2209-2463 [TildeR::deriv]
    (static).  [None] is memory that was allocated but not initialised. *)
Definition tilde_generate (centres neighs nnl : list nat) : result (list (list (option V))) :=
  bind (mapM num_centres centres) (fun ncl =>
  foldM (fun a ii => foldM (fun a jj =>
    bind (get centres ii) (fun ca => bind (get neighs jj) (fun na => bind (get nnl jj) (fun nn => bind (get ncl ii) (fun nc =>
    bind (get (starts ncl) ii) (fun cs => bind (get (starts nnl) jj) (fun ns =>
    bind (pair_generate ca na nn) (fun p => copy_block nc nn cs ns p a)))))))) (seq 0 (length neighs)) a)
    (seq 0 (length centres)) (repeat (repeat None (width nnl)) (width ncl))).

(** se.h:1593-1611 [calc_num_neigh_atoms_lst]: the reservation computed when the
    user gives none.  Counted over all centres. *)
Definition calc_num_neigh (na : nat) : result nat :=
  foldM (fun m ii => bind (num_typed na ii) (fun k => Ok (if m <? k then k else m))) (seq 0 inum) 0.
End Tilde.
