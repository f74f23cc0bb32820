(** The Python function [nblist.find_info4mlff], source/nblist/bind/nblist_bind.cc.

    A NumPy array is seen through its buffer, as in the code: the numbers in memory, without its
    type and layout.  Buffers of atomic numbers are lists of 32 bit words.  A read outside a buffer
    is [Err IndexError].  Numbers are real; [int] does not overflow. *)
From Verif Require Import Vec NbModel NbMlffModel.
Local Open Scope Z_scope.

(** nblist_bind.cc:64-76: three numbers from entry [ii * 3] on. *)
Definition read_vec (buf : list R) (ii : nat) : result vec :=
  bind (get buf (ii * 3)) (fun x => bind (get buf (ii * 3 + 1)) (fun y => bind (get buf (ii * 3 + 2)) (fun z => Ok (x, y, z)))).

(** structure.h:212-257 and 450-472: the structure; fractional coordinates are multiplied with the
    basis vectors. *)
Definition to_cart (A B C f : vec) : vec :=
  ((vx f * vx A + vy f * vx B + vz f * vx C)%R, (vx f * vy A + vy f * vy B + vz f * vy C)%R, (vx f * vz A + vy f * vz B + vz f * vz C)%R).
(** nblist_bind.cc:57-80; [n] is the length of the array of atomic numbers. *)
Definition read_structure (lattice : list R) (n : nat) (atomic_numbers : list Z) (coords : list R) (is_cart : bool) : result cell :=
  bind (read_vec lattice 0) (fun A => bind (read_vec lattice 1) (fun B => bind (read_vec lattice 2) (fun C =>
  bind (mapM (get atomic_numbers) (seq 0 n)) (fun zs =>
  bind (mapM (read_vec coords) (seq 0 n)) (fun xs =>
  Ok {| bA := A; bB := B; bC := C; numbers := zs; coords := if is_cart then xs else map (to_cart A B C) xs; origin := (0, 0, 0)%R |}))))).

(** A NumPy array in the result: shape and buffer. *)
Record ndarray (T : Type) : Type := { nd_shape : list nat; nd_data : list T }.
Arguments nd_shape {T} n.
Arguments nd_data {T} n.
Record nblist_info : Type := {
  r_inum : Z; r_ilist : ndarray Z; r_numneigh : ndarray Z; r_firstneigh : ndarray Z; r_relative : ndarray R;
  r_types : ndarray Z; r_nghost : Z
}.

Section Call.
Variable std_sort : (nat -> nat -> bool) -> list nat -> list nat.

(** neighborList.h:163-176: bins of half the cutoff; no atoms fail an assertion. *)
Definition lists_of (rcut : R) (pbc : bool * bool * bool) (sort : bool) (c : cell) : result (cell * list (list Z)) :=
  if num_atoms c =? 0 then Err AssertionError
  else let half := ((rcut / 2)%R, (rcut / 2)%R, (rcut / 2)%R) in
       if sort then neighbor_lists_sorted std_sort rcut half pbc c else neighbor_lists rcut half pbc c.

(** nblist_bind.cc:30-177.  [pbc] is a list from which the first three entries are taken. *)
Definition find_info4mlff_py (lattice : list R) (n : nat) (atomic_numbers : list Z) (coords : list R) (rcut : R) (pbc : list bool) (umax : nat) (sort is_cart : bool) : result nblist_info :=
  bind (read_structure lattice n atomic_numbers coords is_cart) (fun c =>
  bind (get pbc 0) (fun p0 => bind (get pbc 1) (fun p1 => bind (get pbc 2) (fun p2 =>
  bind (lists_of rcut (p0, p1, p2) sort c) (fun sl =>
  bind (find_info4mlff (fst sl) (prim_index rcut (p0, p1, p2) c) (snd sl) (Z.of_nat umax)) (fun info =>
  Ok {| r_inum := Z.of_nat n;
        r_ilist := {| nd_shape := [n]; nd_data := i_ilist info |};
        r_numneigh := {| nd_shape := [n]; nd_data := i_numneigh info |};
        r_firstneigh := {| nd_shape := [n; umax]; nd_data := i_firstneigh info |};
        r_relative := {| nd_shape := [n; umax; 3%nat]; nd_data := i_relative info |};
        r_types := {| nd_shape := [n]; nd_data := i_types info |};
        r_nghost := i_nghost info |})))))).
End Call.

(** *** Memory: blocks that are allocated, with their sizes in bytes. *)
Record memory : Type := { live : list (nat * nat); next : nat }.
Definition malloc (size : nat) (m : memory) : nat * memory :=
  (next m, {| live := (next m, size) :: live m; next := S (next m) |}).
(** Freeing a block that is not allocated is an error. *)
Definition free (b : nat) (m : memory) : result memory :=
  if existsb (fun e => (fst e =? b)%nat) (live m)
  then Ok {| live := filter (fun e => negb (fst e =? b)%nat) (live m); next := next m |}
  else Err RuntimeError.

(** A write of [size] bytes into a block, or an array object that reaches so far. *)
Definition has_room (m : memory) (use : nat * nat) : bool := existsb (fun e => (fst e =? fst use)%nat && (snd use <=? snd e)%nat) (live m).

(** An array object made by [PyArray_SimpleNewFromData]: its buffer and whether it owns it. *)
Record arrobj : Type := { a_block : nat; a_owns : bool }.

(** nblist_bind.cc:102-176: the buffers, the dimension arrays, what is written into them (a write
    outside a block is an error), the flags as set, the dimension
    arrays freed.  The flag of [firstneigh] is never set: the call at line 142 names [numneigh]. *)
Definition call_memory (n umax : nat) (m : memory) : result (list arrobj * memory) :=
  let '(ilist, m) := malloc (4 * n) m in
  let '(numneigh, m) := malloc (4 * n) m in
  let '(firstneigh, m) := malloc (4 * n * umax) m in
  let '(relative_coords, m) := malloc (8 * n * umax * 3) m in
  let '(types, m) := malloc (4 * n) m in
  let '(ilist_dims, m) := malloc 8 m in
  let '(numneigh_dims, m) := malloc 8 m in
  let '(firstneigh_dims, m) := malloc 16 m in
  let '(relative_coords_dims, m) := malloc 24 m in
  let '(types_dims, m) := malloc 8 m in
  if negb (forallb (has_room m)
    [(ilist, 4 * n); (numneigh, 4 * n); (firstneigh, 4 * (n * umax)); (relative_coords, 8 * (n * umax * 3)); (types, 4 * n);
     (ilist_dims, 8 * 1); (numneigh_dims, 8 * 1); (firstneigh_dims, 8 * 2); (relative_coords_dims, 8 * 3); (types_dims, 8 * 1)]%nat) then Err RuntimeError else
  let arrays := [ {| a_block := ilist; a_owns := true |}; {| a_block := numneigh; a_owns := true |};
                  {| a_block := firstneigh; a_owns := false |}; {| a_block := relative_coords; a_owns := true |};
                  {| a_block := types; a_owns := true |} ] in
  bind (free ilist_dims m) (fun m => bind (free numneigh_dims m) (fun m => bind (free firstneigh_dims m) (fun m =>
  bind (free relative_coords_dims m) (fun m => bind (free types_dims m) (fun m => Ok (arrays, m)))))).

(** What NumPy does when an array object dies: a buffer it owns is freed. *)
Fixpoint drop (arrays : list arrobj) (m : memory) : result memory :=
  match arrays with
  | [] => Ok m
  | a :: r => bind (if a_owns a then free (a_block a) m else Ok m) (drop r)
  end.
(** Calls whose results are dropped, one after the other. *)
Fixpoint calls (ns : list (nat * nat)) (m : memory) : result memory :=
  match ns with
  | [] => Ok m
  | (n, umax) :: r => bind (call_memory n umax m) (fun am => bind (drop (fst am) (snd am)) (calls r))
  end.
