(** The four classes with real numbers and the operations of the code, no rounding. *)
From Verif Require Export RadModel.
From Verif Require Import ChebModel.
Local Open Scope R_scope.

(** basis.h:300-301, mtpMRadial.h:391-396 *)
Definition r_vnext (u v1 v2 : R) : R := 2 * u * v1 - v2.
Definition r_dnext (u v1 d1 d2 : R) : R := 2 * v1 + 2 * u * d1 - d2.
(** basis.h:287, 505 and mtpMRadial.h:379 *)
Definition r_accepted (hi lo r : R) : bool := if Rle_dec lo r then if Rle_dec r hi then true else false else false.
Definition r_inside (hi lo r : R) : bool := if Rle_dec lo r then if Rlt_dec r hi then true else false else false.
(** The scaled distance is [xi], basis.h:288-289 and mtpMRadial.h:167-177; the switching function is
    [vv_result] with derivative [vv_deriv2r], mtpMRadial.h:218-245 and basis.h:129-156. *)
Definition real_poly : class R (basis R) := poly_class R 0 1 r_vnext r_dnext Rmult xi xi_deriv2r r_inside.
Definition real_rb : class R (basis R) := rb_class R 0 1 r_vnext r_dnext Rmult xi xi_deriv2r r_accepted.
Definition real_q : class R (mtp_q R) := q_class R 0 1 r_vnext r_dnext Rmult Rplus xi xi_deriv2r r_inside vv_result vv_deriv2r.
Definition real_rq : class R (rq R) := rq_class R 0 1 r_vnext r_dnext Rmult Rplus xi xi_deriv2r r_accepted vv_result vv_deriv2r.
