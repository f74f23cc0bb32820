(** Memory used by the descriptor functions called from other programs: the static functions of
    source/descriptor/deepmd/include/se.h, with the nested arrays of core/include/arrayUtils.h.
    Every number that is computed on the way is the one of TildeModel; here it is placed in memory.
    Simplified: the arguments are lists (reading behind their end is an error), the elements are
    integers (they are only moved; [row] gives the element for each component of a neighbour),
    the three numbers of [diff_cart_coord] are not followed, and an array of counts is made in
    one step with its final contents.  [malloc] never fails. *)
From Verif Require Export NestModel TildeModel.
Open Scope nat_scope.

(** A failed assertion ends the program. *)
Definition lift {A} (r : result A) : hres A :=
  match r with Ok v => HOk v | Err AssertionError => HErr Aborted | Err _ => HErr OutOfBounds end.

(** The assignments to the components of one neighbour, in the order of the code:
    se.h:953-956 for sizes [4], 1228-1256 for sizes [4; 3]. *)
Fixpoint components (leaf : list nat) : list (list nat) :=
  match leaf with
  | [] => [[]]
  | n :: r => concat (map (fun i => map (cons i) (components r)) (seq 0 n))
  end.

(** [malloc] and the loops that fill an array of counts: se.h:1879-1889, 1919-1933. *)
Definition table (l : list nat) (h : heap) : nat * heap := (length h, h ++ [Some (map (fun n => Some (Z.of_nat n)) l)]).

Section Scratch.
(** Sizes of what is stored per neighbour, its elements, and whether the function for one pair of species checks
    its number of rows at the end (se.h:1265, only [deriv]). *)
Variables (leaf : list nat) (row : vec -> list nat -> Z) (checks : bool).
Variables (inum : nat) (ilist numneigh : list nat) (firstneigh : list (list nat)) (x : list vec) (types : list nat).

(** se.h:938-958, 1186-1262: one pass of the inner loop. *)
Definition mem_neigh (b na : nat) (pc : vec) (ii cidx : nat) (st : heap * nat) (jj : nat) : hres (heap * nat) :=
  let '(h, nidx) := st in
  hbind (lift (get firstneigh ii)) (fun r => hbind (lift (get r jj)) (fun idx => hbind (lift (get types idx)) (fun t =>
  if negb (t =? na) then HOk (h, nidx)
  else hbind (lift (get x idx)) (fun pn =>
       hbind (writes h b (map (fun l => (cidx :: nidx :: l, row (vsub pn pc) l)) (components leaf))) (fun h => HOk (h, nidx + 1)))))).

(** se.h:926-963, 1177-1264: one pass of the outer loop. *)
Definition mem_centre (b ca na nn mx : nat) (st : heap * nat) (ii : nat) : hres (heap * nat) :=
  let '(h, cidx) := st in
  hbind (lift (get ilist ii)) (fun c => hbind (lift (get x c)) (fun pc => hbind (lift (get types c)) (fun t =>
  if negb (t =? ca) then HOk (h, cidx)
  else if nn <? mx then HErr Aborted
  else hbind (lift (get numneigh ii)) (fun n =>
       hbind (hfold (mem_neigh b na pc ii cidx) (seq 0 n) (h, 0)) (fun st => HOk (fst st, cidx + 1)))))).

(** se.h:853-968 [PairTildeR::generate] and 1116-1271 [PairTildeR::deriv] (static): the array that is
    returned, and the heap. *)
Definition mem_pair (ca na nn : nat) (h : heap) : hres (nat * heap) :=
  let '(d, h) := malloc h 3 in
  hbind (lift (num_centres inum ilist types ca)) (fun nc =>
  hbind (allocate_nested (nc :: nn :: leaf) true h) (fun '(b, h) =>
  hbind (lift (max_typed inum ilist numneigh firstneigh types ca na)) (fun mx =>
  hbind (hfold (mem_centre b ca na nn mx) (seq 0 inum) (h, 0)) (fun st =>
  if checks && negb (snd st =? nc) then HErr Aborted
  else hbind (hfree (fst st) d) (fun h => HOk (b, h)))))).

(** se.h:1945-1966, 2070-2081, 2311-2329, 2431-2447: copy the array [p] of one pair to its place in [b]. *)
Definition mem_copy (nc nn cs ns p b : nat) (h : heap) : hres heap :=
  hfold (fun h kk => hfold (fun h ll => hfold (fun h l =>
    hbind (read_at h p (kk :: ll :: l)) (fun v => write_at h b ((cs + kk) :: (ns + ll) :: l) v)) (components leaf) h) (seq 0 nn) h) (seq 0 nc) h.

(** se.h:1937-1973, 2051-2090, 2290-2333, 2410-2452: the loops over the pairs; [pc], [ps], [pn] are
    the arrays of counts and of starts. *)
Definition mem_blocks (pc ps pn b : nat) (centres neighs nnl : list nat) (h : heap) : hres heap :=
  hfold (fun h ii => hfold (fun h jj =>
    hbind (lift (get centres ii)) (fun ca => hbind (lift (get neighs jj)) (fun na => hbind (lift (get nnl jj)) (fun nn =>
    hbind (mem_pair ca na nn h) (fun '(p, h) =>
    hbind (load_ptr h pc ii) (fun nc => hbind (load_ptr h ps ii) (fun cs => hbind (load_ptr h pn jj) (fun ns =>
    hbind (mem_copy nc nn cs ns p b h) (fun h => free_nested (nc :: nn :: removelast leaf) h p)))))))))
    (seq 0 (length neighs)) h) (seq 0 (length centres)) h.

(** se.h:1862-1981 [TildeR::generate] ([init] false) and 2209-2341 [TildeR::deriv] ([init] true): a new
    array is returned. *)
Definition mem_new (init : bool) (centres neighs nnl : list nat) (h : heap) : hres (nat * heap) :=
  hbind (lift (mapM (num_centres inum ilist types) centres)) (fun ncl =>
  let '(pc, h) := table ncl h in
  hbind (allocate_nested (width ncl :: width nnl :: leaf) init h) (fun '(b, h) =>
  let '(ps, h) := table (starts ncl) h in
  let '(pn, h) := table (starts nnl) h in
  hbind (mem_blocks pc ps pn b centres neighs nnl h) (fun h =>
  hbind (hfree h (Some pc)) (fun h => hbind (hfree h (Some ps)) (fun h => hbind (hfree h (Some pn)) (fun h => HOk (b, h))))))).

(** se.h:1985-2096 and 2345-2457, the functions that fill an array of the caller.  The one for the
    values releases the arrays of starts ([tidy]), the one for the derivatives does not. *)
Definition mem_into (tidy : bool) (b : nat) (centres neighs nnl : list nat) (h : heap) : hres heap :=
  hbind (lift (mapM (num_centres inum ilist types) centres)) (fun ncl =>
  let '(pc, h) := table ncl h in
  let '(ps, h) := table (starts ncl) h in
  let '(pn, h) := table (starts nnl) h in
  hbind (mem_blocks pc ps pn b centres neighs nnl h) (fun h =>
  hbind (hfree h (Some pc)) (fun h =>
  if tidy then hbind (hfree h (Some ps)) (fun h => hfree h (Some pn)) else HOk h))).
End Scratch.

(** The arguments of a call, and the two functions that give the elements. *)
Record arguments : Type := { a_inum : nat; a_ilist : list nat; a_numneigh : list nat; a_firstneigh : list (list nat); a_x : list vec;
  a_types : list nat; a_centres : list nat; a_neighs : list nat; a_nnl : list nat; a_value : vec -> list nat -> Z; a_deriv : vec -> list nat -> Z }.
(** The four functions. *)
Definition generate (a : arguments) (h : heap) : hres (nat * heap) :=
  mem_new [4] (a_value a) false (a_inum a) (a_ilist a) (a_numneigh a) (a_firstneigh a) (a_x a) (a_types a) false (a_centres a) (a_neighs a) (a_nnl a) h.
Definition deriv (a : arguments) (h : heap) : hres (nat * heap) :=
  mem_new [4; 3] (a_deriv a) true (a_inum a) (a_ilist a) (a_numneigh a) (a_firstneigh a) (a_x a) (a_types a) true (a_centres a) (a_neighs a) (a_nnl a) h.
Definition generate_into (a : arguments) (b : nat) (h : heap) : hres heap :=
  mem_into [4] (a_value a) false (a_inum a) (a_ilist a) (a_numneigh a) (a_firstneigh a) (a_x a) (a_types a) true b (a_centres a) (a_neighs a) (a_nnl a) h.
Definition deriv_into (a : arguments) (b : nat) (h : heap) : hres heap :=
  mem_into [4; 3] (a_deriv a) true (a_inum a) (a_ilist a) (a_numneigh a) (a_firstneigh a) (a_x a) (a_types a) false b (a_centres a) (a_neighs a) (a_nnl a) h.

(** What a careful caller does with them: the array of the result has [rows] rows and [cols] columns;
    it is taken from the function, or made before the call, and in both cases released after it. *)
Inductive call : Type := Generate (a : arguments) (rows cols : nat) | Deriv (a : arguments) (rows cols : nat)
                       | GenerateInto (a : arguments) (rows cols : nat) | DerivInto (a : arguments) (rows cols : nat).
Definition step (h : heap) (c : call) : hres heap :=
  match c with
  | Generate a n m => hbind (generate a h) (fun '(b, h) => free3dArray b n m h)
  | Deriv a n m => hbind (deriv a h) (fun '(b, h) => free4dArray b n m 4 h)
  | GenerateInto a n m => hbind (allocate3dArray n m 4 true h) (fun '(b, h) => hbind (generate_into a b h) (free3dArray b n m))
  | DerivInto a n m => hbind (allocate4dArray n m 4 3 true h) (fun '(b, h) => hbind (deriv_into a b h) (free4dArray b n m 4))
  end.
Definition calls (l : list call) (h : heap) : hres heap := hfold step l h.
