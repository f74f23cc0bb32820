(** Vocabulary for the k-path, k-mesh and vacuum properties. *)
From Verif Require Import Text Vec.
Open Scope nat_scope.
Open Scope list_scope.

(** A line of IN.KPT whose first three tokens are the coordinates [f]. *)
Definition reads_coord (float_of : string -> result R) (line : string) (f : vec) : Prop :=
  exists s1 s2 s3 rest, split_ws line = s1 :: s2 :: s3 :: rest /\ float_of s1 = Ok (vx f) /\ float_of s2 = Ok (vy f) /\ float_of s3 = Ok (vz f).

(** A line with a label: coordinates, weight and one more token. *)
Definition labelled (line : string) : Prop := List.length (split_ws line) = 5.

(** A jump: two neighbouring lines with labels. *)
Definition jump_at (lines : list string) (j : nat) : Prop :=
  exists l1 l2, nth_error lines j = Some l1 /\ nth_error lines (S j) = Some l2 /\ labelled l1 /\ labelled l2.

(** Length of a vector, and the distance of two points given by reciprocal coordinates. *)
Definition vlen (v : vec) : R := sqrt (norm2 v).
Definition kdist (b1 b2 b3 f g : vec) : R :=
  vlen (comb b1 b2 b3 (vx g - vx f) (vy g - vy f) (vz g - vz f)).

(** [l] takes the steps [step 0], [step 1], ... *)
Definition takes_steps (l : list R) (step : nat -> R -> Prop) : Prop :=
  forall j x y, nth_error l j = Some x -> nth_error l (S j) = Some y -> step j (y - x)%R.

Definition non_decreasing (l : list R) : Prop :=
  forall i j x y, i <= j -> nth_error l i = Some x -> nth_error l j = Some y -> (x <= y)%R.

(** [k] is an integer nearest to [x]. *)
Definition nearest (x : R) (k : Z) : Prop := forall m, (Rabs (x - IZR k) <= Rabs (x - IZR m))%R.

(** [e] is the extent of the non-empty list [l]. *)
Definition extent (l : list R) (e : R) : Prop :=
  exists lo hi, In lo l /\ In hi l /\ e = (hi - lo)%R /\ forall x, In x l -> (lo <= x <= hi)%R.

(** The crystal: an atom moved by a lattice vector. *)
Definition crystal_atom (A B C : vec) (cart : list vec) (p : vec) : Prop :=
  exists q i j k, In q cart /\ p = vadd q (comb A B C (IZR i) (IZR j) (IZR k)).

(** No atom of the crystal has its coordinate in an open interval longer than [w]. *)
Definition empty_slab_along (coord : vec -> R) (w : R) (A B C : vec) (cart : list vec) : Prop :=
  exists lo hi, (hi - lo > w)%R /\ forall p, crystal_atom A B C cart p -> ~ (lo < coord p < hi)%R.

(** Number of k-points for a ratio [x] of reciprocal length to spacing: nearest integer, halves to
    even, but never 0. *)
Definition mesh_count (x : R) (k : Z) : Prop :=
  exists r, nearest x r /\ ((Rabs (x - IZR r) = 1 / 2)%R -> Z.even r = true) /\ k = (if (r =? 0)%Z then 1%Z else r).
