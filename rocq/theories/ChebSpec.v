(** Vocabulary for the radial basis properties. *)
From Verif Require Export Vec.
Open Scope R_scope.

(** The distance scaled from [lo, hi] to [-1, 1]. *)
Definition to_unit (hi lo r : R) : R := (2 * r - (hi + lo)) / (hi - lo).

(** [T n] is the n-th Chebyshev polynomial on [-1, 1]. *)
Definition chebyshev (T : nat -> R -> R) : Prop := forall n theta, T n (cos theta) = cos (INR n * theta).

(** Weighted sum of the first values. *)
Fixpoint weighted (g q : list R) : R := match g, q with a :: g', b :: q' => a * b + weighted g' q' | _, _ => 0 end.

(** Three arrays of a length. *)
Definition sized (size : nat) (t : list R * list R * list R) : Prop :=
  let '(v, d, e) := t in length v = size /\ length d = size /\ length e = size.

(** The n-th value and the n-th derivative of an output. *)
Definition value_of {B} (n : nat) (x : result (list R * B)) : R := match x with Ok q => nth n (fst q) 0 | Err _ => 0 end.
Definition slope_of {A} (n : nat) (x : result (A * list R)) : R := match x with Ok q => nth n (snd q) 0 | Err _ => 0 end.
Definition values_of {B} (x : result (list R * B)) : list R := match x with Ok q => fst q | Err _ => [] end.
