(** The adjacency matrix of a structure: C34.
    The definitions are in [AdjModel] (code) and [AdjSpec] (vocabulary). *)
From Verif Require Import Vec StructSpec NeighSpec AdjModel AdjSpec AdjProofs AdjCases.
Open Scope nat_scope.
Open Scope list_scope.

(** ** C34 *)

(** Whatever is returned is square and symmetric. *)
Theorem C34_symmetric :
  forall A B C rcut s0 s1 s2 fracs m, get_adjacent_matrix A B C rcut s0 s1 s2 fracs = Ok m ->
  square m (length fracs) /\ forall i j v, entry m i j v -> entry m j i v.
Proof. exact adj_symmetric. Qed.
Print Assumptions C34_symmetric.

(** With odd factors the entry counts the translations of the box that bring atom [j] within the
    cutoff of atom [i], less one on the diagonal. *)
Theorem C34_entry :
  forall A B C rcut s0 s1 s2 fracs, positive_odd s0 -> positive_odd s1 -> positive_odd s2 ->
  exists m, get_adjacent_matrix A B C rcut s0 s1 s2 fracs = Ok m /\ square m (length fracs) /\
  forall i j f g, nth_error fracs i = Some f -> nth_error fracs j = Some g ->
    exists n, there_are n (fun t => in_box s0 s1 s2 t /\ within_cutoff A B C rcut f g t) /\ entry m i j (Z.of_nat n - if (i =? j)%nat then 1 else 0)%Z.
Proof. exact adj_entry. Qed.
Print Assumptions C34_entry.

(** If the box reaches the cutoff and the atoms lie in the cell, that is the number of neighbours in
    the infinite crystal. *)
Theorem C34_crystal :
  forall A B C rcut s0 s1 s2 fracs, det A B C <> 0%R -> positive_odd s0 -> positive_odd s1 -> positive_odd s2 -> (0 <= rcut)%R ->
  reaches rcut s0 A B C -> reaches rcut s1 B C A -> reaches rcut s2 C A B -> Forall unit_coords fracs ->
  exists m, get_adjacent_matrix A B C rcut s0 s1 s2 fracs = Ok m /\ forall i j f g, nth_error fracs i = Some f -> nth_error fracs j = Some g ->
    exists n, there_are n (fun t => within_cutoff A B C rcut f g t /\ (i = j -> t <> (0, 0, 0)%Z)) /\ entry m i j (Z.of_nat n).
Proof. exact adj_crystal. Qed.
Print Assumptions C34_crystal.

(** The test for odd factors never rejects an even one.  With factors 1 and 2 every count is
    multiplied by their product; *)
Theorem C34_even_small :
  forall A B C rcut s0 s1 s2 fracs, (s0 = 1 \/ s0 = 2)%Z -> (s1 = 1 \/ s1 = 2)%Z -> (s2 = 1 \/ s2 = 2)%Z ->
  exists m, get_adjacent_matrix A B C rcut s0 s1 s2 fracs = Ok m /\ forall i j f g, nth_error fracs i = Some f -> nth_error fracs j = Some g ->
    (within_cutoff A B C rcut f g (0, 0, 0)%Z -> entry m i j (s0 * s1 * s2 - if (i =? j)%nat then 1 else 0)%Z) /\
    (~ within_cutoff A B C rcut f g (0, 0, 0)%Z -> entry m i j (if (i =? j)%nat then -1 else 0)%Z).
Proof. exact adj_even_small. Qed.
Print Assumptions C34_even_small.

(** for example an atom without neighbours is given seven. *)
Theorem C34_phantom_refuted :
  exists m, get_adjacent_matrix (10, 0, 0)%R (0, 10, 0)%R (0, 0, 10)%R 1 2 2 2 [(0, 0, 0)%R] = Ok m /\ entry m 0 0 7%Z /\
  there_are 0 (fun t => within_cutoff (10, 0, 0)%R (0, 10, 0)%R (0, 0, 10)%R 1 (0, 0, 0)%R (0, 0, 0)%R t /\ t <> (0, 0, 0)%Z).
Proof. exact phantom. Qed.
Print Assumptions C34_phantom_refuted.

(** Other even factors fail later, when arrays of different sizes are subtracted; *)
Theorem C34_even_large :
  forall A B C rcut s0 s1 s2 fracs, (0 < s0)%Z -> (0 < s1)%Z -> (0 < s2)%Z -> (Z.Even s0 \/ Z.Even s1 \/ Z.Even s2) -> (3 <= s0 \/ 3 <= s1 \/ 3 <= s2)%Z ->
  get_adjacent_matrix A B C rcut s0 s1 s2 fracs = Err ValueError.
Proof. exact adj_even_large. Qed.
Print Assumptions C34_even_large.

(** only factors below 1 are rejected by the test itself. *)
Theorem C34_nonpositive :
  forall A B C rcut s0 s1 s2 fracs, (s0 <= 0 \/ s1 <= 0 \/ s2 <= 0)%Z -> get_adjacent_matrix A B C rcut s0 s1 s2 fracs = Err AssertionError.
Proof. exact adj_nonpositive. Qed.
Print Assumptions C34_nonpositive.

(** A negative cutoff gives minus the identity. *)
Theorem C34_negative_cutoff :
  forall A B C rcut s0 s1 s2 fracs, (rcut < 0)%R -> positive_odd s0 -> positive_odd s1 -> positive_odd s2 ->
  exists m, get_adjacent_matrix A B C rcut s0 s1 s2 fracs = Ok m /\ forall i j, i < length fracs -> j < length fracs -> entry m i j (if (i =? j)%nat then -1 else 0)%Z.
Proof. exact adj_negative_cutoff. Qed.
Print Assumptions C34_negative_cutoff.

Example C34_case : det (1, 0, 0)%R (0, 1, 0)%R (0, 0, 1)%R <> 0%R /\ positive_odd 3 /\ reaches 1 3 (1, 0, 0)%R (0, 1, 0)%R (0, 0, 1)%R /\ reaches 1 3 (0, 1, 0)%R (0, 0, 1)%R (1, 0, 0)%R /\
  reaches 1 3 (0, 0, 1)%R (1, 0, 0)%R (0, 1, 0)%R /\ Forall unit_coords [(0, 0, 0)%R; (1 / 2, 1 / 2, 1 / 2)%R] /\
  within_cutoff (1, 0, 0)%R (0, 1, 0)%R (0, 0, 1)%R 1 (0, 0, 0)%R (0, 0, 0)%R (1, 0, 0)%Z.
Proof. exact crystal_case. Qed.
