(** Notions of geometry for vectors of three numbers, written down without the operations of the code. *)
From Verif Require Import Vec3Model.
Local Open Scope R_scope.

(** Two vectors have one direction: one line through the origin holds both. *)
Definition on_a_line (a b : vec3) : Prop := exists e s t, a = V3 (s * d0 e) (s * d1 e) (s * d2 e) /\ b = V3 (t * d0 e) (t * d1 e) (t * d2 e).
(** The volume of three vectors with its sign: sum over the permutations. *)
Definition det3 (a b c : vec3) : R :=
  d0 a * d1 b * d2 c + d1 a * d2 b * d0 c + d2 a * d0 b * d1 c - d2 a * d1 b * d0 c - d1 a * d0 b * d2 c - d0 a * d2 b * d1 c.
(** An operation done on component after component. *)
Definition componentwise (f : R -> R -> R) (a b c : vec3) : Prop :=
  forall i x y, at3 a i = Ok x -> at3 b i = Ok y -> at3 c i = Ok (f x y).
(** The objects after the one at [x] was replaced by [v]. *)
Definition only_changed (s s' : objects3) (x : nat) (v : vec3) : Prop :=
  length s' = length s /\ nth_error s' x = Some v /\ forall y, y <> x -> nth_error s' y = nth_error s y.
