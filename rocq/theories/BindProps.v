(** C89, the Python function [nblist.find_info4mlff]. *)
From Verif Require Import Vec SeSpec NbModel NbSpec NbMlffModel NbMlffSpec NbMlffProofs NbWitness BindModel BindFinal BindSpec.
Local Open Scope Z_scope.

(** ** C89 *)

(** Called with contiguous arrays of the right types, rows wide enough for every atom's
    neighbours: the result describes the neighbour table of the structure that is meant, Cartesian
    or fractional.  Row i lists the periodic neighbours of atom i, each with its number and its
    position relative to atom i, followed by -1 and 0. *)
Theorem C89_result : forall std_sort, sort_contract std_sort -> forall A B C zs xs is_cart c, meant A B C zs xs is_cart c -> zs <> [] -> proper c -> wrapped c -> faces_positive c ->
  forall rcut p0 p1 p2 rest sort umax, (0 < rcut)%R ->
  exists nbrs, neighbour_table rcut (p0, p1, p2) c sort nbrs /\
  (Forall (fun l => (length l <= umax)%nat) nbrs ->
   exists r, find_info4mlff_py std_sort (row_major [A; B; C]) (length zs) zs (row_major xs) rcut (p0 :: p1 :: p2 :: rest) umax sort is_cart = Ok r /\ holds c umax nbrs r).
Proof. exact result_ok. Qed.
Print Assumptions C89_result.
Example C89_case : (exists std_sort, sort_contract std_sort) /\ exists c, c = {| bA := bA unit_cell; bB := bB unit_cell; bC := bC unit_cell; numbers := [1; 8]; coords := coords unit_cell; origin := origin unit_cell |} /\
  meant (1, 0, 0)%R (0, 1, 0)%R (0, 0, 1)%R [1; 8] [(1 / 2, 0, 0)%R; (2 / 5, 0, 0)%R] false c /\ proper c /\ wrapped c /\ faces_positive c.
Proof. split; [exact (ex_intro _ isort isort_contract)|]. eexists. split; [reflexivity|]. split; [exact case_meant|]. split; [exact unit_proper|]. split; [exact unit_wrapped|exact unit_faces]. Qed.

(** No atoms fail an assertion; arrays that are too short for the number of atoms are read past
    their end. *)
Theorem C89_no_atoms : forall std_sort lattice coords rcut p0 p1 p2 rest umax sort is_cart, (9 <= length lattice)%nat ->
  find_info4mlff_py std_sort lattice 0 [] coords rcut (p0 :: p1 :: p2 :: rest) umax sort is_cart = Err AssertionError.
Proof. exact no_atoms. Qed.
Print Assumptions C89_no_atoms.
Theorem C89_too_short : forall std_sort lattice n numbers coords rcut pbc umax sort is_cart, (length lattice < 9 \/ length numbers < n \/ length coords < 3 * n)%nat ->
  find_info4mlff_py std_sort lattice n numbers coords rcut pbc umax sort is_cart = Err IndexError.
Proof. exact too_short. Qed.
Print Assumptions C89_too_short.
Example C89_case_short : (length (row_major [(1, 2, 3)%R]) < 3 * 2)%nat.
Proof. cbn. lia. Qed.

(** Atomic numbers in NumPy's default 64 bit integers are not refused: every second type is 0 and
    only the first half of the numbers is used. *)
Theorem C89_int64_refuted : forall std_sort, sort_contract std_sort -> forall A B C zs xs is_cart c, meant A B C zs xs is_cart c -> zs <> [] -> proper c -> wrapped c -> faces_positive c ->
  forall rcut p0 p1 p2 rest sort umax, (0 < rcut)%R ->
  exists nbrs, neighbour_table rcut (p0, p1, p2) c sort nbrs /\
  (Forall (fun l => (length l <= umax)%nat) nbrs ->
   exists r, find_info4mlff_py std_sort (row_major [A; B; C]) (length zs) (words64 zs) (row_major xs) rcut (p0 :: p1 :: p2 :: rest) umax sort is_cart = Ok r /\
   forall i z, (i < length zs)%nat -> nth_error zs (i / 2) = Some z -> elem1 (r_types r) (length zs) i (if Nat.even i then z else 0)).
Proof. exact int64. Qed.
Print Assumptions C89_int64_refuted.
Example C89_case_int64 : firstn 3 (words64 [42; 16; 16]) = [42; 0; 16].
Proof. reflexivity. Qed.

(** A lattice stored column by column is not refused: the result is that of the transposed lattice,
    which has other neighbours. *)
Theorem C89_fortran_refuted : forall std_sort, sort_contract std_sort -> forall A B C zs xs is_cart c,
  meant (vx A, vx B, vx C) (vy A, vy B, vy C) (vz A, vz B, vz C) zs xs is_cart c -> zs <> [] -> proper c -> wrapped c -> faces_positive c ->
  forall rcut p0 p1 p2 rest sort umax, (0 < rcut)%R ->
  exists nbrs, neighbour_table rcut (p0, p1, p2) c sort nbrs /\
  (Forall (fun l => (length l <= umax)%nat) nbrs ->
   exists r, find_info4mlff_py std_sort (column_major [A; B; C]) (length zs) zs (row_major xs) rcut (p0 :: p1 :: p2 :: rest) umax sort is_cart = Ok r /\ holds c umax nbrs r).
Proof. exact fortran. Qed.
Print Assumptions C89_fortran_refuted.
Example C89_case_fortran : is_neighbour (11 / 10) (true, true, true) skewed 0 0 (1, 0, 0) /\ ~ is_neighbour (11 / 10) (true, true, true) transposed 0 0 (1, 0, 0).
Proof. exact transposed_differs. Qed.

(** Memory: no block is freed twice, and when the result is dropped everything is released except
    the table of neighbour numbers. *)
Theorem C89_leak_refuted : forall n umax m, sane m -> exists arrays m1 m2 a, call_memory n umax m = Ok (arrays, m1) /\ drop arrays m1 = Ok m2 /\ nth_error arrays 2 = Some a /\
  live m2 = (a_block a, (4 * n * umax)%nat) :: live m /\ sane m2.
Proof. exact drop_ok. Qed.
Print Assumptions C89_leak_refuted.
(** Any number of calls loses the tables of all of them. *)
Theorem C89_leak_grows : forall ns m, sane m -> exists m', calls ns m = Ok m' /\ sane m' /\ bytes (live m') = (bytes (live m) + fold_right (fun nu t => (4 * fst nu * snd nu + t)%nat) 0%nat ns)%nat.
Proof. exact calls_ok. Qed.
Print Assumptions C89_leak_grows.
Example C89_case_leak : sane {| live := []; next := 0 |} /\ exists m', calls [(12, 19); (12, 19)]%nat {| live := []; next := 0 |} = Ok m' /\ bytes (live m') = 1824%nat.
Proof. split; [split; [constructor|intros b s []]|]. eexists. split; [vm_compute; reflexivity|]. reflexivity. Qed.
