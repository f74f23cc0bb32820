(** Properties C51, C52, C61: the radial basis of the moment descriptors. *)
From Verif Require Import RDeriv SeModel SeSpec ChebModel ChebSpec ChebProofs.
Open Scope R_scope.

(** ** C51 *)

(** basis.h: on the interval the n-th value is V_n of the scaled distance, where
    V_n(cos theta) = cos(n theta); both derivative tables are its derivatives; nothing
    left over from an earlier call matters. *)
Theorem C51_chebyshev :
  exists V DV : nat -> R -> R, chebyshev V /\ (forall n u, derivable_pt_lim (V n) u (DV n u)) /\
  forall size rmax rmin r old, rmin < rmax -> rmin <= r <= rmax -> sized size old ->
  exists DR, (forall n, derivable_pt_lim (fun t => V n (to_unit rmax rmin t)) r (DR n)) /\
  rb_build size rmax rmin r old =
  Ok (map (fun n => V n (to_unit rmax rmin r)) (seq 0 size), map (fun n => DV n (to_unit rmax rmin r)) (seq 0 size), map DR (seq 0 size)).
Proof. exact rb_ok. Qed.
Print Assumptions C51_chebyshev.

Theorem C51_bounded :
  forall size rmax rmin r old v d e, rmin < rmax -> sized size old -> rb_build size rmax rmin r old = Ok (v, d, e) ->
  Forall (fun x => Rabs x <= 1) v.
Proof. exact rb_bound. Qed.
Print Assumptions C51_bounded.

(** Outside the interval the assertion fires. *)
Theorem C51_outside :
  forall size rmax rmin r old, r < rmin \/ rmax < r -> rb_build size rmax rmin r old = Err AssertionError.
Proof. exact rb_outside. Qed.
Print Assumptions C51_outside.

(** With the switching factor: values and derivatives on the closed interval. *)
Theorem C51_switched :
  exists V : nat -> R -> R, chebyshev V /\
  forall size rmax rmin r old, rmin < rmax -> rmin <= r <= rmax -> sized size old ->
  exists DR, (forall n, derivable_pt_lim (fun t => switch_result rmax rmin t * V n (to_unit rmax rmin t)) r (DR n)) /\
  rq_build size rmax rmin r old =
  Ok (map (fun n => switch_result rmax rmin r * V n (to_unit rmax rmin r)) (seq 0 size), map DR (seq 0 size)).
Proof. exact rq_ok. Qed.
Print Assumptions C51_switched.

(** The polynomials of the moment tensor radial functions: Chebyshev from the inner radius up to but
    not including the outer one, elsewhere all values and derivatives are zero. *)
Theorem C51_mtp_polynomials :
  exists V DV : nat -> R -> R, chebyshev V /\ (forall n u, derivable_pt_lim (V n) u (DV n u)) /\
  forall size rc rs r old, rs < rc -> sized size old ->
  (rs <= r < rc -> exists DR, (forall n, derivable_pt_lim (fun t => V n (to_unit rc rs t)) r (DR n)) /\
    poly_build size rc rs r old = Ok (map (fun n => V n (to_unit rc rs r)) (seq 0 size), map (fun n => DV n (to_unit rc rs r)) (seq 0 size), map DR (seq 0 size))) /\
  (r < rs \/ rc <= r -> poly_build size rc rs r old = Ok (repeat 0 size, repeat 0 size, repeat 0 size)).
Proof. exact poly_ok. Qed.
Print Assumptions C51_mtp_polynomials.

(** mtpMRadial.h: the same product between the radii, zero outside ... *)
Theorem C51_mtp_values :
  exists V : nat -> R -> R, chebyshev V /\
  forall size rc rs r old, rs < rc -> sized size old -> exists vals ders, mq_build size rc rs r old = Ok (vals, ders) /\
  length vals = size /\ length ders = size /\
  forall n, (n < size)%nat ->
    nth n vals 0 = if Rlt_dec r rs then 0 else if Rlt_dec r rc then V n (to_unit rc rs r) * switch_result rc rs r else 0.
Proof. exact mq_ok. Qed.
Print Assumptions C51_mtp_values.

(** ... and the derivative table is right everywhere (also at the cutoff) except at the inner radius. *)
Theorem C51_mtp_derivative :
  forall size rc rs old n r, rs < rc -> r <> rs -> sized size old -> (n < size)%nat ->
  derivable_pt_lim (fun t => value_of n (mq_build size rc rs t old)) r (slope_of n (mq_build size rc rs r old)).
Proof. exact mq_dl. Qed.
Print Assumptions C51_mtp_derivative.

Example C51_case : rb_build 4 4 0 3 (repeat 0 4, repeat 0 4, repeat 0 4) =
  Ok ([1; 1 / 2; - (1 / 2); -1], [0; 1; 2; 0], [0; 1 / 2; 1; 0]).
Proof. exact ex_T3. Qed.
Example C51_case_mtp : forall size old, sized size old -> (1 < size)%nat ->
  value_of 0 (mq_build size 6 4 5 old) = 1 / 2 /\ value_of 1 (mq_build size 6 4 5 old) = 0.
Proof. exact ex_mq_half. Qed.
Example C51_case_sized : forall size, sized size (repeat 0 size, repeat 0 size, repeat 0 size).
Proof. exact zeros_sized. Qed.

(** ** C52 *)

(** The factor is 0 below the inner radius and 1 at it. *)
Theorem C52_switch_jumps :
  forall rc rs, rs < rc ->
  (forall r, r < rs -> vv_result rc rs r = 0) /\ vv_result rc rs rs = 1 /\ ~ continuity_pt (vv_result rc rs) rs.
Proof. exact vv_jump. Qed.
Print Assumptions C52_switch_jumps.

(** It agrees with the documented function exactly from the inner radius on. *)
Theorem C52_documented :
  forall rc rs r, rs < rc ->
  (rs <= r -> vv_result rc rs r = switch_result rc rs r) /\ (r < rs -> switch_result rc rs r = 1 /\ vv_result rc rs r = 0).
Proof. exact vv_documented. Qed.
Print Assumptions C52_documented.

Theorem C52_derivative_elsewhere :
  forall rc rs r, rs < rc -> r <> rs -> derivable_pt_lim (vv_result rc rs) r (vv_deriv2r rc rs r).
Proof. exact vv_dl. Qed.
Print Assumptions C52_derivative_elsewhere.

(** Every radial value jumps there, to 1 or -1. *)
Theorem C52_values_jump :
  forall size rc rs old n, rs < rc -> sized size old -> (n < size)%nat ->
  (forall r, r < rs -> value_of n (mq_build size rc rs r old) = 0) /\ value_of n (mq_build size rc rs rs old) = (-1) ^ n /\
  ~ continuity_pt (fun t => value_of n (mq_build size rc rs t old)) rs.
Proof. exact mq_jump. Qed.
Print Assumptions C52_values_jump.

(** ** C61 *)

(** The forward pass of the radial operator stores the partial derivatives of its outputs,
    and the backward pass returns the gradient of the weighted sum of the outputs. *)
Theorem C61_radial_gradient :
  forall size rc rs d old grad, rs < rc -> vnorm d <> rs -> (d = (0, 0, 0) -> 0 < rs) -> sized size old -> length grad = size ->
  exists vals ders out, radial_forward size rc rs d old = Ok (vals, ders) /\ radial_backward grad ders = Ok out /\ length out = 3%nat /\
  forall k, (k < 3)%nat ->
    (forall n, (n < size)%nat -> partial k (fun p => value_of n (radial_forward size rc rs p old)) d (entry2 n k ders)) /\
    partial k (fun p => weighted grad (values_of (radial_forward size rc rs p old))) d (entry k out).
Proof. exact radial_gradient. Qed.
Print Assumptions C61_radial_gradient.

Example C61_case : vnorm (3, 4, 0) = 5 /\ radial_forward 1 6 4 (3, 4, 0) ([0], [0], [0]) = Ok ([1 / 2], [[- (9 / 16); - (3 / 4); 0]]).
Proof. exact ex_radial. Qed.
