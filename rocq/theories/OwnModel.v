(** Memory of the C++ neighbour lists: nblist/include/binLinkedList.h and neighborList.h.

    A neighbour list contains a bin list, which contains a supercell, which contains a structure
    (LifeModel); each of them manages memory of its own.  A program is a list of constructions,
    copies, assignments and destructions of the neighbour lists of a fixed number of variables.

    Numbers that are calculated from other numbers are given by functions of what was read from
    memory: the functions are arbitrary.  Simplified: coordinates and cutoffs are integers (they are
    only moved, and the cutoff is compared with 0); fields of objects that are no pointers are copied
    together; the arrays of working memory are allocated and freed, but not written; an
    [std::vector] is one block, replaced as a whole (its memory is managed by the library); a
    pointer that was never assigned is [None].  A failed [assert] is the error [Aborted].  The assignment
    operator of [BasicStructureInfo] (binLinkedList.h:242-260) lacks its return statement, which is
    undefined behaviour; here it returns. *)
From Verif Require Export LifeModel.
Local Open Scope nat_scope.

(** *** Helpers *)
(** A parameter passed by value: copied before and destroyed after the call. *)
Definition by_value {A} (st : obj) (k : obj -> heap -> hres (A * heap)) (h : heap) : hres (A * heap) :=
  hbind (construct_copy st h) (fun '(p, h) => hbind (k p h) (fun '(a, h) => hbind (destroy p h) (fun h => HOk (a, h)))).
(** Working memory: allocated before and freed after. *)
Definition scratch {A} (dims : list nat) (k : heap -> hres (A * heap)) (h : heap) : hres (A * heap) :=
  hbind (allocate_nested dims false h) (fun '(b, h) => hbind (k h) (fun '(a, h) => hbind (free_nested (removelast dims) h b) (fun h => HOk (a, h)))).
(** [free] of an array of numbers. *)
Definition free_array (p : option nat) (h : heap) : hres heap := deref p (fun b => free_nested [] h b).
(** A new array filled from another one; [src] may name the new array itself. *)
Definition copy_array (n : nat) (src : nat -> option nat) (h : heap) : hres (option nat * heap) :=
  hbind (allocate_nested [n] false h) (fun '(b, h) =>
  hbind (assigns (map (fun i => ([i], fun h => deref (src b) (fun q => read_at h q [i]))) (seq 0 n)) b h) (fun h => HOk (Some b, h))).
Definition read_array (n : nat) (p : option nat) (h : heap) : hres (list Z) := deref p (fun b => hmap (fun i => read_at h b [i]) (seq 0 n)).
(** The numbers of a structure, read for a calculation. *)
Definition shown (o : obj) (h : heap) : hres printed :=
  hbind (show o h) (fun p => match p with Some p => HOk p | None => HErr Uninitialised end).

Definition no_structure : obj := {| o_n := 0; o_basis := None; o_origin := None; o_numbers := None; o_coords := None |}.
(** structure.h:319-384; [None]: the object is assigned to itself. *)
Definition assign_structure (this : obj) (rhs : option obj) (h : heap) : hres (obj * heap) :=
  hbind (if o_n this =? 0 then HOk h else release this h) (fun h =>
  let this := with_n this 0 in
  let r := match rhs with Some r => r | None => this end in
  if o_n r =? 0 then HOk (this, h) else copy_from r h).

(** *** Supercells *)
Record cell_info : Type := { prim : nat; lengths : list Z * list Z; scaling : nat * nat * nat; cell_xyz : Z * Z * Z; cell_idx : Z }.
Definition no_info : cell_info := {| prim := 0; lengths := ([0; 0; 0], [0; 0; 0])%Z; scaling := (1, 1, 1); cell_xyz := (0, 0, 0)%Z; cell_idx := 0 |}.
Record supercell : Type := { sc_structure : obj; sc_info : cell_info; sc_num : nat; sc_owned : option nat }.
(** binLinkedList.h:305-321 *)
Definition no_supercell : supercell := {| sc_structure := no_structure; sc_info := no_info; sc_num := 0; sc_owned := None |}.

(** binLinkedList.h:396-429, [operator=]; the copy constructor, 358-385, does the same to a new object. *)
Definition assign_supercell (this : supercell) (rhs : option supercell) (h : heap) : hres (supercell * heap) :=
  hbind (if sc_num this =? 0 then HOk h else free_array (sc_owned this) h) (fun h =>
  let r := match rhs with Some r => r | None => this end in
  if sc_num r =? 0 then
    hbind (assign_structure (sc_structure this) (Some no_structure) h) (fun '(st, h) =>
    HOk ({| sc_structure := st; sc_info := no_info; sc_num := 0; sc_owned := sc_owned this |}, h))
  else
    hbind (assign_structure (sc_structure this) (option_map sc_structure rhs) h) (fun '(st, h) =>
    hbind (copy_array (prim (sc_info r)) (fun b => match rhs with Some r => sc_owned r | None => Some b end) h) (fun '(b, h) =>
    HOk ({| sc_structure := st; sc_info := sc_info r; sc_num := sc_num r; sc_owned := b |}, h)))).
(** binLinkedList.h:438-442; the member is destroyed after the body. *)
Definition destroy_supercell (s : supercell) (h : heap) : hres heap :=
  hbind (if sc_num s =? 0 then HOk h else free_array (sc_owned s) h) (destroy (sc_structure s)).

Definition scaling3 (s : nat * nat * nat) : nat := let '(a, b, c) := s in a * b * c.
(** binLinkedList.h:451-465 *)
Definition central (s : nat) : Z :=
  let z := Z.of_nat s in if (Z.rem z 2 =? 0)%Z then (Z.quot z 2 - 1)%Z else Z.quot (z - 1) 2.

(** *** Bin lists *)
Record bin_info : Type := { bin_size : list Z; pbc : bool * bool * bool; num_bin : nat * nat * nat; min_limit : list Z }.
Definition no_bins : bin_info := {| bin_size := [0; 0; 0]%Z; pbc := (false, false, false); num_bin := (0, 0, 0); min_limit := [0; 0; 0]%Z |}.
Record bin_list : Type := { bl_supercell : supercell; bl_rcut : Z; bl_info : bin_info; bl_heads : option nat; bl_nexts : option nat }.
(** binLinkedList.h:568-575 *)
Definition no_bin_list : bin_list := {| bl_supercell := no_supercell; bl_rcut := 0; bl_info := no_bins; bl_heads := None; bl_nexts := None |}.

(** binLinkedList.h:744-780, [operator=]; the copy constructor, 703-733, does the same to a new object. *)
Definition assign_bin_list (this : bin_list) (rhs : option bin_list) (h : heap) : hres (bin_list * heap) :=
  hbind (if (bl_rcut this =? 0)%Z then HOk h else hbind (free_array (bl_heads this) h) (free_array (bl_nexts this))) (fun h =>
  let r := match rhs with Some r => r | None => this end in
  if (bl_rcut r =? 0)%Z then
    hbind (assign_supercell (bl_supercell this) (Some no_supercell) h) (fun '(sc, h) =>
    HOk ({| bl_supercell := sc; bl_rcut := 0; bl_info := no_bins; bl_heads := None; bl_nexts := None |}, h))
  else
    hbind (assign_supercell (bl_supercell this) (option_map bl_supercell rhs) h) (fun '(sc, h) =>
    hbind (copy_array (scaling3 (num_bin (bl_info r))) (fun b => match rhs with Some r => bl_heads r | None => Some b end) h) (fun '(heads, h) =>
    hbind (copy_array (o_n (sc_structure sc)) (fun b => match rhs with Some r => bl_nexts r | None => Some b end) h) (fun '(nexts, h) =>
    HOk ({| bl_supercell := sc; bl_rcut := bl_rcut r; bl_info := bl_info r; bl_heads := heads; bl_nexts := nexts |}, h))))).
(** binLinkedList.h:789-796 *)
Definition destroy_bin_list (b : bin_list) (h : heap) : hres heap :=
  hbind (if (bl_rcut b =? 0)%Z then HOk h else hbind (free_array (bl_heads b) h) (free_array (bl_nexts b))) (destroy_supercell (bl_supercell b)).

(** What can be read from a bin list. *)
Record bin_view : Type := { w_structure : printed; w_cells : cell_info; w_owned : list Z; w_rcut : Z; w_bins : bin_info; w_heads : list Z; w_nexts : list Z }.
Definition read_bin_list (b : bin_list) (h : heap) : hres bin_view :=
  let sc := bl_supercell b in
  hbind (shown (sc_structure sc) h) (fun p =>
  hbind (read_array (prim (sc_info sc)) (sc_owned sc) h) (fun owned =>
  hbind (read_array (scaling3 (num_bin (bl_info b))) (bl_heads b) h) (fun heads =>
  hbind (read_array (o_n (sc_structure sc)) (bl_nexts b) h) (fun nexts =>
  HOk {| w_structure := p; w_cells := sc_info sc; w_owned := owned; w_rcut := bl_rcut b; w_bins := bl_info b; w_heads := heads; w_nexts := nexts |})))).

(** *** Arrays of vectors: a block of pointers to vectors; a vector without memory is a cell
    without value. *)
Definition vec_new (n : nat) (h : heap) : nat * heap := (length h, h ++ [Some (repeat None n)]).
Definition vec_cell (h : heap) (b i : nat) : hres (option Z) :=
  hbind (block_of h (Some b)) (fun c => match nth_error c i with Some z => HOk z | None => HErr OutOfBounds end).
Fixpoint numbers_of (c : list (option Z)) : hres (list Z) :=
  match c with [] => HOk [] | Some z :: r => hbind (numbers_of r) (fun l => HOk (z :: l)) | None :: _ => HErr Uninitialised end.
Definition vec_get (h : heap) (b i : nat) : hres (list Z) :=
  hbind (vec_cell h b i) (fun z => match z with None => HOk [] | Some q => hbind (block_of h (Some (Z.to_nat q))) numbers_of end).
Definition vec_put (h : heap) (b i : nat) (row : list Z) : hres heap :=
  hbind (vec_cell h b i) (fun z =>
  hbind (match z with None => HOk h | Some q => hfree h (Some (Z.to_nat q)) end) (fun h =>
  store (h ++ [Some (map Some row)]) (Some b) i (Z.of_nat (length h)))).
(** [delete[]] *)
Definition vec_delete (n : nat) (p : option nat) (h : heap) : hres heap :=
  deref p (fun b => hbind (hfold (fun h i => hbind (vec_cell h b i) (fun z => match z with None => HOk h | Some q => hfree h (Some (Z.to_nat q)) end)) (seq 0 n) h)
                      (fun h => hfree h (Some b))).
(** neighborList.h:190-198, 222-230: the rows one after the other. *)
Definition vec_copy (n : nat) (src : nat -> option nat) (h : heap) : hres (option nat * heap) :=
  let '(b, h) := vec_new n h in
  hbind (hfold (fun h i => deref (src b) (fun q => hbind (vec_get h q i) (fun row => vec_put h b i row))) (seq 0 n) h) (fun h => HOk (Some b, h)).

(** *** Neighbour lists *)
Record nblist : Type := { nl_bins : bin_list; nl_num : nat; nl_lists : option nat; nl_rcut : Z }.
(** neighborList.h:126-131 *)
Definition no_nblist : nblist := {| nl_bins := no_bin_list; nl_num := 0; nl_lists := None; nl_rcut := 0 |}.
(** neighborList.h:185-199, the copy constructor. *)
Definition copy_nblist (rhs : nblist) (h : heap) : hres (nblist * heap) :=
  hbind (assign_bin_list no_bin_list (Some (nl_bins rhs)) h) (fun '(b, h) =>
  if nl_num rhs =? 0 then HOk ({| nl_bins := b; nl_num := 0; nl_lists := None; nl_rcut := nl_rcut rhs |}, h)
  else hbind (vec_copy (nl_num rhs) (fun _ => nl_lists rhs) h) (fun '(l, h) =>
       HOk ({| nl_bins := b; nl_num := nl_num rhs; nl_lists := l; nl_rcut := nl_rcut rhs |}, h))).
(** neighborList.h:210-233, [operator=] *)
Definition assign_nblist (this : nblist) (rhs : option nblist) (h : heap) : hres (nblist * heap) :=
  hbind (if nl_num this =? 0 then HOk h else vec_delete (nl_num this) (nl_lists this) h) (fun h =>
  let r := match rhs with Some r => r | None => this end in
  hbind (assign_bin_list (nl_bins this) (option_map nl_bins rhs) h) (fun '(b, h) =>
  if nl_num r =? 0 then HOk ({| nl_bins := b; nl_num := 0; nl_lists := nl_lists this; nl_rcut := nl_rcut r |}, h)
  else hbind (vec_copy (nl_num r) (fun q => match rhs with Some r => nl_lists r | None => Some q end) h) (fun '(l, h) =>
       HOk ({| nl_bins := b; nl_num := nl_num r; nl_lists := l; nl_rcut := nl_rcut r |}, h)))).
(** neighborList.h:243-250 *)
Definition destroy_nblist (x : nblist) (h : heap) : hres heap :=
  hbind (if nl_num x =? 0 then HOk h else vec_delete (nl_num x) (nl_lists x) h) (destroy_bin_list (nl_bins x)).

(** *** Constructions *)
Section Numbers.
(** Projected lengths and interplanar distances; how many cells to add on each side; numbers of
    bins; least coordinates; the bin of an atom; the neighbours of an atom and their order. *)
Variable lengths_of : printed -> list Z * list Z.
Variable extending : printed -> Z -> nat * nat * nat.
Variable bins_of : printed -> list Z -> nat * nat * nat.
Variable min_of : printed -> list Z.
Variable bin_of : bin_info -> list Z -> Z.
Variable found : bin_view -> nat -> list Z.
Variable arranged : bin_view -> nat -> list Z -> list Z.

(** binLinkedList.h:178-203, [BasicStructureInfo]: number of atoms and lengths. *)
Definition basic_info (p : obj) (h : heap) : hres (nat * (list Z * list Z) * heap) :=
  if o_n p =? 0 then HOk ((0, ([0; 0; 0], [0; 0; 0])%Z), h)
  else scratch [3] (scratch [3] (fun h => hbind (shown p h) (fun q => HOk ((o_n p, lengths_of q), h)))) h.

(** binLinkedList.h:332-348, 451-493, the constructor of a supercell. *)
Definition construct_supercell (s : nat * nat * nat) (st : obj) (h : heap) : hres (supercell * heap) :=
  hbind (assign_structure no_structure (Some st) h) (fun '(mine, h) =>
  hbind (by_value st basic_info h) (fun '(nl, h) =>
  let n := fst nl in
  let '(s0, s1, s2) := s in
  let '(c0, c1, c2) := (central s0, central s1, central s2) in
  let cell := (c0 + c1 * Z.of_nat s0 + c2 * Z.of_nat s0 * Z.of_nat s1)%Z in
  hbind (new_array [n] (fun _ idx => match idx with [i] => HOk (cell * Z.of_nat n + Z.of_nat i)%Z | _ => HErr OutOfBounds end) h) (fun '(owned, h) =>
  hbind (make_supercell s0 s1 s2 mine h) (fun '(mine, h) =>
  HOk ({| sc_structure := mine; sc_info := {| prim := n; lengths := snd nl; scaling := s; cell_xyz := (c0, c1, c2); cell_idx := cell |};
          sc_num := n * s0 * s1 * s2; sc_owned := Some owned |}, h))))).

(** binLinkedList.h:805-832, [_build]. *)
Definition build_bins (info : bin_info) (st : obj) (h : heap) : hres (option nat * option nat * heap) :=
  hbind (new_array [scaling3 (num_bin info)] (fun _ _ => HOk (-1)%Z) h) (fun '(heads, h) =>
  hbind (new_array [o_n st] (fun _ _ => HOk (-1)%Z) h) (fun '(nexts, h) =>
  hbind (hfold (fun h ii =>
    deref (o_coords st) (fun bc => hbind (hmap (fun j => read_at h bc [ii; j]) (seq 0 3)) (fun c =>
    let k := bin_of info c in
    if (k <? 0)%Z then HErr OutOfBounds else
    hbind (read_at h heads [Z.to_nat k]) (fun z => hbind (write_at h nexts [ii] z) (fun h => write_at h heads [Z.to_nat k] (Z.of_nat ii)))))) (seq 0 (o_n st)) h) (fun h =>
  HOk (Some heads, Some nexts, h)))).

Definition scale (p : bool) (e : nat) : nat := if p then e * 2 + 1 else 1.
(** binLinkedList.h:588-636 and 648-693, the constructors of a bin list (the second one is the
    first with half the cutoff as bin size). *)
Definition construct_bin_list (rcut : Z) (size : list Z) (per : bool * bool * bool) (st : obj) (h : heap) : hres (bin_list * heap) :=
  if o_n st =? 0 then HErr Aborted else
  hbind (shown st h) (fun p =>
  let '(e0, e1, e2) := extending p rcut in
  let '(p0, p1, p2) := per in
  hbind (scratch [3] (scratch [3] (scratch [3] (fun h =>
    hbind (by_value st (construct_supercell (scale p0 e0, scale p1 e1, scale p2 e2)) h) (fun '(local, h) =>
    hbind (assign_supercell no_supercell (Some local) h) (fun '(sc, h) =>
    scratch [3] (fun h =>
    hbind (shown (sc_structure local) h) (fun q =>
    scratch [3; 2] (fun h =>
    hbind (shown (sc_structure sc) h) (fun q' =>
    let info := {| bin_size := size; pbc := per; num_bin := bins_of q size; min_limit := min_of q' |} in
    hbind (build_bins info (sc_structure sc) h) (fun '(heads, nexts, h) =>
    HOk ((local, {| bl_supercell := sc; bl_rcut := rcut; bl_info := info; bl_heads := heads; bl_nexts := nexts |}), h)))) h)) h))))) h) (fun '((local, b), h) =>
  hbind (destroy_supercell local h) (fun h => HOk (b, h)))).

(** neighborList.h:260-324, [_build]. *)
Definition build_lists (b : bin_list) (n : nat) (sort : bool) (lists : nat) (h : heap) : hres heap :=
  hbind (hfold (fun h ii => hbind (read_bin_list b h) (fun w => vec_put h lists ii (found w ii))) (seq 0 n) h) (fun h =>
  if sort then
    hfold (fun h ii => hbind (read_bin_list b h) (fun w => hbind (vec_get h lists ii) (fun row =>
      hbind (scratch [length row] (scratch [length row] (fun h => hbind (vec_put h lists ii (arranged w ii row)) (fun h => HOk (tt, h)))) h) (fun '(_, h) => HOk h)))) (seq 0 n) h
  else HOk h).
(** neighborList.h:144-151, 164-175 *)
Definition construct_nblist (rcut : Z) (size : list Z) (per : bool * bool * bool) (sort : bool) (st : obj) (h : heap) : hres (nblist * heap) :=
  if o_n st =? 0 then HErr Aborted else
  hbind (by_value st (construct_bin_list rcut size per) h) (fun '(tmp, h) =>
  hbind (assign_bin_list no_bin_list (Some tmp) h) (fun '(b, h) =>
  hbind (destroy_bin_list tmp h) (fun h =>
  let n := prim (sc_info (bl_supercell b)) in
  let '(lists, h) := vec_new n h in
  hbind (build_lists b n sort lists h) (fun h =>
  HOk ({| nl_bins := b; nl_num := n; nl_lists := Some lists; nl_rcut := rcut |}, h))))).

(** What a user sees: the cutoff and, unless the list is empty, the bin list and the neighbours of
    every atom (neighborList.h:328-442, binLinkedList.h:516-555). *)
Definition nl_view : Type := Z * option (bin_view * list (list Z)).
Definition read_nblist (x : nblist) (h : heap) : hres nl_view :=
  if nl_num x =? 0 then HOk (nl_rcut x, None) else
  hbind (read_bin_list (nl_bins x) h) (fun w => deref (nl_lists x) (fun b => hbind (hmap (vec_get h b) (seq 0 (nl_num x))) (fun rows => HOk (nl_rcut x, Some (w, rows))))).

(** *** Programs over numbered variables *)
Record arguments : Type := { a_n : nat; a_basis : list (list Z); a_numbers : list Z; a_coords : list (list Z); a_cart : bool;
  a_rcut : Z; a_size : list Z; a_pbc : bool * bool * bool; a_sort : bool }.
Inductive nl_command : Type :=
  | NDefault (x : nat)
  | NMake (x : nat) (a : arguments)
  | NCopy (x y : nat)
  | NAssign (x y : nat)
  | NDestroy (x : nat).
Definition nl_state : Type := list (option nblist) * heap.
Definition nl_object (st : list (option nblist)) (x : nat) : hres nblist :=
  match nth_error st x with Some (Some o) => HOk o | _ => HErr NoObject end.
Definition nl_place (x : nat) (r : heap -> hres (nblist * heap)) (s : nl_state) : hres nl_state :=
  match nth_error (fst s) x with
  | Some None => hbind (r (snd s)) (fun '(o, h) => HOk (replace (fst s) x (Some o), h))
  | _ => HErr NoObject
  end.
(** The structure of a construction is an object of its own, destroyed afterwards. *)
Definition make (a : arguments) (h : heap) : hres (nblist * heap) :=
  hbind (construct (a_n a) (a_basis a) (a_numbers a) (a_coords a) (a_cart a) h) (fun '(st, h) =>
  hbind (by_value st (construct_nblist (a_rcut a) (a_size a) (a_pbc a) (a_sort a)) h) (fun '(x, h) =>
  hbind (destroy st h) (fun h => HOk (x, h)))).
Definition nl_step (c : nl_command) (s : nl_state) : hres nl_state :=
  match c with
  | NDefault x => nl_place x (fun h => HOk (no_nblist, h)) s
  | NMake x a => nl_place x (make a) s
  | NCopy x y => hbind (nl_object (fst s) y) (fun rhs => nl_place x (copy_nblist rhs) s)
  | NAssign x y => hbind (nl_object (fst s) x) (fun this => hbind (nl_object (fst s) y) (fun rhs =>
      hbind (assign_nblist this (if x =? y then None else Some rhs) (snd s)) (fun '(o, h) => HOk (replace (fst s) x (Some o), h))))
  | NDestroy x => hbind (nl_object (fst s) x) (fun o => hbind (destroy_nblist o (snd s)) (fun h => HOk (replace (fst s) x None, h)))
  end.
Fixpoint nl_run (l : list nl_command) (s : nl_state) : hres nl_state :=
  match l with [] => HOk s | c :: r => hbind (nl_step c s) (nl_run r) end.
Definition nl_start (vars : nat) : nl_state := (repeat None vars, []).
Definition nl_seen (s : nl_state) (x : nat) : hres nl_view := hbind (nl_object (fst s) x) (fun o => read_nblist o (snd s)).
End Numbers.
