(** What the voxel queries are meant to return. *)
From Verif Require Export Vec.
From Coq Require Export Permutation Sorted.
Open Scope R_scope.

(** Entries are ordered by coordinate, then by atom ([std::pair]'s order). *)
Definition entry_le (a b : R * nat) : Prop := fst a < fst b \/ (fst a = fst b /\ (snd a <= snd b)%nat).
Definition by_x (l : list (R * nat)) : Prop := forall i j a b, (i <= j)%nat -> nth_error l i = Some a -> nth_error l j = Some b -> fst a <= fst b.
Definition sorts (f : list (R * nat) -> list (R * nat)) : Prop := forall l, Permutation l (f l) /\ StronglySorted entry_le (f l).

(** [k] splits the positions lower..upper-1 of [l] into a part where [P] fails and a part where it holds. *)
Definition first_where (P : R -> Prop) (l : list (R * nat)) (lower upper k : nat) : Prop :=
  (lower <= k <= upper)%nat /\
  (forall i a, (lower <= i < k)%nat -> nth_error l i = Some a -> ~ P (fst a)) /\
  (forall i a, (k <= i < upper)%nat -> nth_error l i = Some a -> P (fst a)).

(** Box vectors in the form the fold assumes: the first has only an x component, the second no z component. *)
Definition lower_triangular (a b c : vec) : Prop := vy a = 0 /\ vz a = 0 /\ vz b = 0.

(** The cell (y, z) of a table of rows. *)
Definition cell {A} (t : list (list A)) (y z : Z) : option A :=
  match nth_error t (Z.to_nat y) with Some row => nth_error row (Z.to_nat z) | None => None end.
