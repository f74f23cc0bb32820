(** The outer power of a vector. *)
From Verif Require Export Base.
Open Scope nat_scope.

Section Spec.
Context {T : Type}.
Variable mul : T -> T -> T.
(** The product of the components named by the digits, from left to right. *)
Definition product (first : T) (rest : list T) : T := fold_left mul rest first.
(** The number with these base-3 digits. *)
Definition base3 (ds : list nat) : nat := fold_left (fun a d => 3 * a + d) ds 0.
(** [flat] lists the outer power of rank r: 3^r numbers, the one at the position with digits
    d1 ... dr being the product of components d1 ... dr. *)
Definition outer_power (r : nat) (x y z : T) (flat : list T) : Prop :=
  length flat = 3 ^ r /\
  forall d ds, length (d :: ds) = r -> Forall (fun e => e < 3) (d :: ds) ->
  nth_error flat (base3 (d :: ds)) = Some (product (nth d [x; y; z] x) (map (fun e => nth e [x; y; z] x) ds)).
End Spec.
