(** Independent vocabulary for structures. *)
From Verif Require Import Base.
From Coq Require Import Sorting.Permutation Sorting.Sorted.

(** Integer triples with |i| <= (a-1)/2, |j| <= (b-1)/2, |k| <= (c-1)/2. *)
Definition in_box (a b c : Z) (t : Z * Z * Z) : Prop :=
  let '(i, j, k) := t in
  (2 * Z.abs i <= a - 1 /\ 2 * Z.abs j <= b - 1 /\ 2 * Z.abs k <= c - 1)%Z.

Definition positive_odd (s : Z) : Prop := (0 < s)%Z /\ Z.Odd s.

(** [l'] is [l] stably sorted by [key]. *)
Definition stable_sorted {A} (key : A -> Z) (l l' : list A) : Prop :=
  Permutation l l' /\
  StronglySorted (fun x y => (key x <= key y)%Z) l' /\
  forall z, filter (fun x => (key x =? z)%Z) l' = filter (fun x => (key x =? z)%Z) l.

(** The sequence consists of runs of the listed elements in the listed order. *)
Fixpoint grouped (elements : list Z) (zs : list Z) : Prop :=
  match elements with
  | [] => zs = []
  | e :: es => exists n rest, zs = repeat e n ++ rest /\ grouped es rest
  end.

(** First appearances. *)
Definition first_at (zs : list Z) (z : Z) (i : nat) : Prop :=
  nth_error zs i = Some z /\ forall j, j < i -> nth_error zs j <> Some z.

(** [l] comes from [l'] by leaving entries out. *)
Inductive leaves_out {A} : list A -> list A -> Prop :=
| lo_nil : leaves_out [] []
| lo_keep : forall x l l', leaves_out l l' -> leaves_out (x :: l) (x :: l')
| lo_drop : forall x l l', leaves_out l l' -> leaves_out l (x :: l').
