(** Properties C21, C22, C47, C48: radial weights, descriptor entries and derivatives. *)
From Verif Require Import RDeriv SeModel SeSpec SeProofs.
Open Scope R_scope.

(** ** C47 *)

(** 1 up to the inner radius, 0 from the cutoff on. *)
Theorem C47_plateaus :
  forall rc rs, rs < rc -> forall r,
  (r <= rs -> switch_result rc rs r = 1) /\ (rc <= r -> switch_result rc rs r = 0).
Proof. exact switch_plateaus. Qed.
Print Assumptions C47_plateaus.

(** Between 0 and 1 everywhere, strictly between the two radii, and never increasing. *)
Theorem C47_range :
  forall rc rs, rs < rc -> forall r,
  0 <= switch_result rc rs r <= 1 /\ (rs < r < rc -> 0 < switch_result rc rs r < 1).
Proof. exact switch_ranges. Qed.
Print Assumptions C47_range.

Theorem C47_decreasing :
  forall rc rs, rs < rc -> forall r r', r <= r' -> switch_result rc rs r' <= switch_result rc rs r.
Proof. exact switch_decreasing. Qed.
Print Assumptions C47_decreasing.

(** The returned derivative is the derivative at every real distance. *)
Theorem C47_derivative :
  forall rc rs, rs < rc -> forall r, derivable_pt_lim (switch_result rc rs) r (switch_deriv2r rc rs r).
Proof. exact switch_dl. Qed.
Print Assumptions C47_derivative.

(** And it has a continuous derivative itself. *)
Theorem C47_twice :
  forall rc rs, rs < rc -> exists s'', forall r,
  derivable_pt_lim (switch_deriv2r rc rs) r (s'' r) /\ continuity_pt s'' r.
Proof. exact switch_twice. Qed.
Print Assumptions C47_twice.

(** The switching function of the other descriptor agrees on its interval and
    fails an assertion elsewhere. *)
Theorem C47_basis :
  forall rmax rmin r, rmin < rmax ->
  (rmin <= r <= rmax -> basis_switch_val rmax rmin r = Ok (switch_result rmax rmin r) /\
                        basis_switch_der2r rmax rmin r = Ok (switch_deriv2r rmax rmin r)) /\
  (r < rmin \/ rmax < r -> basis_switch_val rmax rmin r = Err AssertionError /\ basis_switch_der2r rmax rmin r = Err AssertionError).
Proof. exact basis_switch. Qed.
Print Assumptions C47_basis.

Example C47_case : switch_result 6 4 5 = 1 / 2 /\ switch_deriv2r 6 4 5 = - (15 / 16).
Proof. exact switch_half. Qed.

(** ** C48 *)

(** Pair and plane-wave variants: derivatives with respect to the centre [c]. *)
Theorem C48_centre :
  forall rc rs n c k a, rs < rc -> n <> c -> (a < 4)%nat -> (k < 3)%nat ->
  partial k (fun p => entry a (tilde_row rc rs (vsub n p))) c (entry2 a k (pair_deriv rc rs (vsub n c))).
Proof. exact move_centre. Qed.
Print Assumptions C48_centre.

(** Environment matrix variant: derivatives with respect to the neighbour [n]. *)
Theorem C48_neighbour :
  forall rc rs n c k a, rs < rc -> n <> c -> (a < 4)%nat -> (k < 3)%nat ->
  partial k (fun p => entry a (tilde_row rc rs (vsub p c))) n (entry2 a k (env_deriv rc rs (vsub n c))).
Proof. exact move_neigh. Qed.
Print Assumptions C48_neighbour.

Theorem C48_opposite :
  forall rc rs d a k, (a < 4)%nat -> (k < 3)%nat -> entry2 a k (pair_deriv rc rs d) = - entry2 a k (env_deriv rc rs d).
Proof. exact deriv_opposite. Qed.
Print Assumptions C48_opposite.

(** Beyond the cutoff the whole row and all its derivatives vanish. *)
Theorem C48_beyond_cutoff :
  forall rc rs d, rs < rc -> rc <= vnorm d ->
  (forall a, entry a (tilde_row rc rs d) = 0) /\
  (forall a k, entry2 a k (pair_deriv rc rs d) = 0 /\ entry2 a k (env_deriv rc rs d) = 0).
Proof. exact beyond_cutoff. Qed.
Print Assumptions C48_beyond_cutoff.

Example C48_case : (3, 4, 0) <> (0, 0, 0) /\ vnorm (vsub (3, 4, 0) (0, 0, 0)) = 5 /\
  entry2 0 0 (pair_deriv 10 6 (3, 4, 0)) = 3 / 125.
Proof. exact deriv_case. Qed.

(** ** C21 *)

(** The weight is 1/r up to the inner radius. *)
Theorem C21_inner :
  forall rc rs r, rs < rc -> r <= rs -> py_s rc rs r = / r.
Proof. exact py_s_near. Qed.
Print Assumptions C21_inner.

(** Up to the cutoff it has a continuous derivative, the slope of 1/r at the inner radius. *)
Theorem C21_smooth_below_cutoff :
  forall rc rs, 0 < rs -> rs < rc ->
  exists s', (forall r, 0 < r < rc -> derivable_pt_lim (py_s rc rs) r (s' r)) /\
             (forall r, 0 < r < rc -> continuity_pt s' r) /\ s' rs = - / (rs * rs).
Proof. exact py_s_smooth_inner. Qed.
Print Assumptions C21_smooth_below_cutoff.

(** Approaching the cutoff from below it tends to 0 ... *)
Theorem C21_left_limit :
  forall rc rs, 0 < rc -> rs < rc -> forall eps, 0 < eps ->
  exists d, 0 < d /\ forall t, rc - d < t < rc -> Rabs (py_s rc rs t) < eps.
Proof. exact py_s_left_limit. Qed.
Print Assumptions C21_left_limit.

(** ... but from the cutoff on it is 1/r again, so it jumps there. *)
Theorem C21_jump :
  forall rc rs, 0 < rc -> rs < rc ->
  (forall r, rc <= r -> py_s rc rs r = / r) /\ ~ continuity_pt (py_s rc rs) rc.
Proof. exact py_s_jumps. Qed.
Print Assumptions C21_jump.

(** Below the cutoff it is the weight of the C++ code. *)
Theorem C21_same_as_cpp :
  forall rc rs r, rs < rc -> r < rc -> py_s rc rs r = smooth_func rc rs r.
Proof. exact py_s_smooth. Qed.
Print Assumptions C21_same_as_cpp.

Example C21_case : py_s 6 4 5 = / 10 /\ py_s 6 4 6 = / 6.
Proof. exact py_s_case. Qed.

(** ** C22 *)

(** Below the cutoff the table holds the partial derivatives with respect to the centre. *)
Theorem C22_derivative :
  forall rc rs n c k a, rs < rc -> 0 < vnorm (vsub n c) < rc -> (a < 4)%nat -> (k < 3)%nat ->
  partial k (fun p => entry a (py_tilde_row rc rs (vnorm (vsub n p)) (vsub n p))) c
    (entry2 a k (py_deriv rc rs (vnorm (vsub n c)) (vsub n c))).
Proof. exact py_move_centre. Qed.
Print Assumptions C22_derivative.

(** On the cutoff the table is zero although the entry has just jumped to 1/rcut. *)
Theorem C22_at_cutoff :
  forall rc rs n c k a, rs < rc -> 0 < rc -> vnorm (vsub n c) = rc -> (a < 4)%nat -> (k < 3)%nat ->
  entry2 a k (py_deriv rc rs (vnorm (vsub n c)) (vsub n c)) = 0 /\
  entry 0 (py_tilde_row rc rs (vnorm (vsub n c)) (vsub n c)) = / rc.
Proof. exact py_deriv_at_cutoff. Qed.
Print Assumptions C22_at_cutoff.

(** Beyond the cutoff the table is not the derivative any more: the entry is
    1/r but the table continues the polynomial. *)
Theorem C22_beyond_cutoff_refuted :
  exists rc rs n c k a, 0 < rs < rc /\ rc < vnorm (vsub n c) /\ (a < 4)%nat /\ (k < 3)%nat /\
  ~ partial k (fun p => entry a (py_tilde_row rc rs (vnorm (vsub n p)) (vsub n p))) c
    (entry2 a k (py_deriv rc rs (vnorm (vsub n c)) (vsub n c))).
Proof. exact py_deriv_beyond. Qed.
Print Assumptions C22_beyond_cutoff_refuted.

Example C22_case : 0 < vnorm (vsub (3, 4, 0) (0, 0, 0)) < 6 /\ vnorm (vsub (3, 4, 0) (0, 0, 0)) = 5.
Proof. exact norm_case. Qed.
