(** What the sorting and the flat arrays are meant to deliver. *)
From Verif Require Export NbSpec NbMlffModel.
From Coq Require Export Sorting.Permutation.
Open Scope Z_scope.

(** A strict weak ordering, as [std::sort] demands of its comparison. *)
Definition strict_weak (lt : nat -> nat -> bool) : Prop :=
  (forall i j, lt i j = true -> lt j i = false) /\
  (forall i j k, lt i j = false -> lt j k = false -> lt i k = false).

(** What [std::sort] guarantees: a rearrangement in which no later element is
    smaller than an earlier one.  Nothing is said about equal elements. *)
Definition sort_contract (sort : (nat -> nat -> bool) -> list nat -> list nat) : Prop :=
  forall lt l, strict_weak lt ->
    Permutation l (sort lt l) /\
    forall i j a b, (i < j)%nat -> nth_error (sort lt l) i = Some a -> nth_error (sort lt l) j = Some b -> lt b a = false.

(** Distances (of atoms of [pos] from [centre]) do not decrease along the list. *)
Definition by_increasing_distance (pos : list vec) (centre : vec) (l : list Z) : Prop :=
  forall i j a b p q, (i < j)%nat -> nth_error l i = Some a -> nth_error l j = Some b ->
    arr_get pos a = Ok p -> arr_get pos b = Ok q -> (dist2 p centre <= dist2 q centre)%R.

(** Rows of equal width, filled up with a default. *)
Definition padded_rows {A} (width : nat) (fill : A) (rows : list (list A)) : list A :=
  concat (map (fun r => r ++ repeat fill (width - length r)) rows).

(** How many atoms of a list have atomic number [zn]. *)
Definition typed_count (ns : list Z) (zn : Z) (l : list Z) : nat :=
  length (filter (fun m => match nth_error ns (Z.to_nat m) with Some z => z =? zn | None => false end) l).

