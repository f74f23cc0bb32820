(** Lemmas about the descriptor formulas. *)
From Verif Require Import RDeriv SeModel SeSpec.
Open Scope R_scope.

(** *** The switching polynomial *)

Definition poly (u : R) : R := u ^ 3 * (-6 * u ^ 2 + 15 * u - 10) + 1.
Definition dpoly (u : R) : R := -30 * u ^ 4 + 60 * u ^ 3 - 30 * u ^ 2.
Definition ddpoly (u : R) : R := -120 * u ^ 3 + 180 * u ^ 2 - 60 * u.

Lemma poly_dl u : derivable_pt_lim poly u (dpoly u).
Proof.
  unfold poly. eapply dl_val; cycle 1.
  { apply dl_plus; [|apply dl_const]. apply dl_mult; [apply dl_pow, dl_id|].
    apply dl_minus; [|apply dl_const]. apply dl_plus; [apply dl_scal, dl_pow, dl_id|apply dl_scal, dl_id]. }
  unfold dpoly. cbn [INR Nat.pred pow]. ring.
Qed.

Lemma dpoly_dl u : derivable_pt_lim dpoly u (ddpoly u).
Proof.
  unfold dpoly. eapply dl_val; cycle 1.
  { apply dl_minus; [apply dl_plus|]; apply dl_scal, dl_pow, dl_id. }
  unfold ddpoly. cbn [INR Nat.pred pow]. ring.
Qed.

Lemma dpoly_sq u : dpoly u = - (30 * (u * (u - 1)) ^ 2).
Proof. unfold dpoly. ring. Qed.

Section Switch.
Variables rc rs : R.
Hypothesis Hrs : rs < rc.

Definition scaled (r : R) : R := (r - rs) / (rc - rs).

Lemma scaled_dl r : derivable_pt_lim scaled r (/ (rc - rs)).
Proof.
  unfold scaled. eapply dl_val; cycle 1.
  { apply (dl_ext (fun t => / (rc - rs) * (t - rs))); [intros t; unfold Rdiv; ring|].
    apply dl_scal, dl_minus; [apply dl_id|apply dl_const]. }
  ring.
Qed.

Lemma scaled_rs : scaled rs = 0.
Proof using Hrs. unfold scaled. field. lra. Qed.
Lemma scaled_rc : scaled rc = 1.
Proof using Hrs. unfold scaled. field. lra. Qed.
Lemma scaled_range r : rs <= r -> r <= rc -> 0 <= scaled r <= 1.
Proof using Hrs.
  intros A B. unfold scaled, Rdiv. assert (P : 0 < / (rc - rs)) by (apply Rinv_0_lt_compat; lra).
  split; [apply Rmult_le_pos; lra|]. apply (Rmult_le_reg_r (rc - rs)); [lra|]. rewrite Rmult_assoc, Rinv_l; lra.
Qed.

Lemma switch_low r : r < rs -> switch_result rc rs r = 1.
Proof. intros H. unfold switch_result. destruct (Rlt_dec r rs); [reflexivity|lra]. Qed.
Lemma switch_mid r : rs <= r -> r < rc -> switch_result rc rs r = poly (scaled r).
Proof. intros H H'. unfold switch_result. destruct (Rlt_dec r rs); [lra|]. destruct (Rlt_dec r rc); [reflexivity|lra]. Qed.
Lemma switch_high r : rc <= r -> switch_result rc rs r = 0.
Proof using Hrs. intros H. unfold switch_result. destruct (Rlt_dec r rs); [lra|]. destruct (Rlt_dec r rc); [lra|reflexivity]. Qed.
Lemma dswitch_low r : r < rs -> switch_deriv2r rc rs r = 0.
Proof. intros H. unfold switch_deriv2r. destruct (Rlt_dec r rs); [reflexivity|lra]. Qed.
Lemma dswitch_mid r : rs <= r -> r < rc -> switch_deriv2r rc rs r = dpoly (scaled r) * / (rc - rs).
Proof. intros H H'. unfold switch_deriv2r. destruct (Rlt_dec r rs); [lra|]. destruct (Rlt_dec r rc); [|lra]. unfold dpoly, scaled, Rdiv. ring. Qed.
Lemma dswitch_high r : rc <= r -> switch_deriv2r rc rs r = 0.
Proof using Hrs. intros H. unfold switch_deriv2r. destruct (Rlt_dec r rs); [lra|]. destruct (Rlt_dec r rc); [lra|reflexivity]. Qed.

(** A function made of constant, middle and constant pieces that fit. *)
Lemma three_pieces (f g : R -> R) (g' f' : R -> R) (lo hi : R) :
  (forall r, r < rs -> f r = lo) -> (forall r, rs <= r -> r < rc -> f r = g r) -> (forall r, rc <= r -> f r = hi) ->
  (forall r, derivable_pt_lim g r (g' r)) -> g rs = lo -> g rc = hi -> g' rs = 0 -> g' rc = 0 ->
  (forall r, r < rs -> f' r = 0) -> (forall r, rs <= r -> r < rc -> f' r = g' r) -> (forall r, rc <= r -> f' r = 0) ->
  forall r, derivable_pt_lim f r (f' r).
Proof using Hrs.
  intros L M H D Grs Grc Drs Drc L' M' H' r.
  destruct (Rlt_dec r rs) as [C1|C1].
  - rewrite L' by exact C1. apply (dl_loc (fun _ => lo) _ _ _ (rs - r)); [lra| |apply dl_const].
    intros t Ht. symmetry. apply L. apply Rabs_def2 in Ht. lra.
  - destruct (Rlt_dec r rc) as [C2|C2].
    + rewrite M' by lra. destruct (Req_dec r rs) as [->|N].
      * assert (D' : derivable_pt_lim (fun t => if Rlt_dec t rs then lo else g t) rs (g' rs)).
        { apply (dl_glue _ (fun _ => lo) g).
          - intros t Ht. destruct (Rlt_dec t rs); [reflexivity|lra].
          - intros t Ht. destruct (Rlt_dec t rs); [lra|reflexivity].
          - symmetry. exact Grs.
          - rewrite Drs. apply dl_const.
          - apply D. }
        eapply (dl_loc _ _ _ _ (rc - rs)); [lra| |exact D'].
        intros t Ht. apply Rabs_def2 in Ht. cbv beta. destruct (Rlt_dec t rs); symmetry; [apply L; assumption|apply M; lra].
      * assert (P : 0 < Rmin (r - rs) (rc - r)) by (apply Rmin_pos; lra).
        apply (dl_loc g _ _ _ (Rmin (r - rs) (rc - r))); [exact P| |apply D].
        intros t Ht. pose proof (Rmin_l (r - rs) (rc - r)). pose proof (Rmin_r (r - rs) (rc - r)).
        apply Rabs_def2 in Ht. symmetry. apply M; lra.
    + rewrite H' by lra. destruct (Req_dec r rc) as [->|N].
      * assert (D' : derivable_pt_lim (fun t => if Rlt_dec t rc then g t else hi) rc 0).
        { apply (dl_glue _ g (fun _ => hi)).
          - intros t Ht. destruct (Rlt_dec t rc); [reflexivity|lra].
          - intros t Ht. destruct (Rlt_dec t rc); [lra|reflexivity].
          - exact Grc.
          - rewrite <- Drc. apply D.
          - apply dl_const. }
        eapply (dl_loc _ _ _ _ (rc - rs)); [lra| |exact D'].
        intros t Ht. apply Rabs_def2 in Ht. cbv beta. destruct (Rlt_dec t rc); symmetry; [apply M; lra|apply H; lra].
      * apply (dl_loc (fun _ => hi) _ _ _ (r - rc)); [lra| |apply dl_const].
        intros t Ht. apply Rabs_def2 in Ht. symmetry. apply H. lra.
Qed.

Lemma switch_dl r : derivable_pt_lim (switch_result rc rs) r (switch_deriv2r rc rs r).
Proof using Hrs.
  apply (three_pieces _ (fun t => poly (scaled t)) (fun t => dpoly (scaled t) * / (rc - rs)) _ 1 0).
  - exact switch_low. - exact switch_mid. - exact switch_high.
  - intros t. apply (dl_comp scaled poly); [apply scaled_dl|apply poly_dl].
  - rewrite scaled_rs. unfold poly. ring.
  - rewrite scaled_rc. unfold poly. ring.
  - rewrite scaled_rs. unfold dpoly. ring.
  - rewrite scaled_rc. unfold dpoly. ring.
  - exact dswitch_low. - exact dswitch_mid. - exact dswitch_high.
Qed.

(** The second derivative (not part of the code). *)
Definition switch_second (r : R) : R :=
  if Rlt_dec r rs then 0 else if Rlt_dec r rc then ddpoly (scaled r) * / (rc - rs) * / (rc - rs) else 0.

Lemma switch_second_dl r : derivable_pt_lim (switch_deriv2r rc rs) r (switch_second r).
Proof using Hrs.
  apply (three_pieces _ (fun t => dpoly (scaled t) * / (rc - rs)) (fun t => ddpoly (scaled t) * / (rc - rs) * / (rc - rs)) _ 0 0).
  - exact dswitch_low. - exact dswitch_mid. - exact dswitch_high.
  - intros t. eapply dl_val; cycle 1.
    { apply dl_mult; [|apply dl_const]. apply (dl_comp scaled dpoly); [apply scaled_dl|apply dpoly_dl]. }
    cbv beta. ring.
  - rewrite scaled_rs. unfold dpoly. ring.
  - rewrite scaled_rc. unfold dpoly. ring.
  - rewrite scaled_rs. unfold ddpoly. ring.
  - rewrite scaled_rc. unfold ddpoly. ring.
  - intros t Ht. unfold switch_second. destruct (Rlt_dec t rs); [reflexivity|lra].
  - intros t Ht Ht'. unfold switch_second. destruct (Rlt_dec t rs); [lra|]. destruct (Rlt_dec t rc); [reflexivity|lra].
  - intros t Ht. unfold switch_second. destruct (Rlt_dec t rs); [lra|]. destruct (Rlt_dec t rc); [lra|reflexivity].
Qed.

(** Continuity of a function with continuous fitting pieces. *)
Lemma cont_glue f g h x : (forall t, t < x -> f t = g t) -> (forall t, x <= t -> f t = h t) -> g x = h x ->
  continuity_pt g x -> continuity_pt h x -> continuity_pt f x.
Proof using.
  intros L R0 E G H eps He. destruct (G eps He) as (a & Ha & Ga). destruct (H eps He) as (b & Hb & Gb).
  exists (Rmin a b). split; [apply Rmin_pos; assumption|]. intros t [[T1 T2] T3]. cbn in *. unfold R_dist in *.
  rewrite (R0 x) by lra. destruct (Rlt_dec t x) as [C|C].
  - rewrite (L t) by exact C. rewrite <- E. apply Ga. split; [split; [exact I|exact T2]|].
    eapply Rlt_le_trans; [exact T3|apply Rmin_l].
  - rewrite (R0 t) by lra. apply Gb. split; [split; [exact I|exact T2]|]. eapply Rlt_le_trans; [exact T3|apply Rmin_r].
Qed.

Lemma ddpoly_cont u : continuity_pt ddpoly u.
Proof.
  apply (dl_continuous _ _ (-360 * u ^ 2 + 360 * u - 60)). unfold ddpoly. eapply dl_val; cycle 1.
  { apply dl_minus; [apply dl_plus|]; [apply dl_scal, dl_pow, dl_id|apply dl_scal, dl_pow, dl_id|apply dl_scal, dl_id]. }
  cbn [INR Nat.pred pow]. ring.
Qed.

Lemma switch_second_cont r : continuity_pt switch_second r.
Proof using Hrs.
  set (g := fun t => ddpoly (scaled t) * / (rc - rs) * / (rc - rs)).
  assert (Gc : forall t, continuity_pt g t).
  { intros t. unfold g.
    apply (continuity_pt_mult (fun t => ddpoly (scaled t) * / (rc - rs)) (fun _ => / (rc - rs))); [|apply continuity_pt_const; intros ? ?; reflexivity].
    apply (continuity_pt_mult (fun t => ddpoly (scaled t)) (fun _ => / (rc - rs))); [|apply continuity_pt_const; intros ? ?; reflexivity].
    apply (continuity_pt_comp scaled ddpoly); [eapply dl_continuous, scaled_dl|apply ddpoly_cont]. }
  assert (C0 : forall x, continuity_pt (fun _ => 0) x) by (intros x; apply continuity_pt_const; intros ? ?; reflexivity).
  assert (Inner : forall x, continuity_pt (fun t => if Rlt_dec t rc then g t else 0) x).
  { intros x. destruct (Rtotal_order x rc) as [C|[->|C]].
    - intros eps He. destruct (Gc x eps He) as (a & Ha & Ga). exists (Rmin a (rc - x)).
      split; [apply Rmin_pos; lra|]. intros t [T1 T3]. pose proof (Rmin_l a (rc - x)). pose proof (Rmin_r a (rc - x)).
      destruct (Rlt_dec x rc); [|lra]. destruct (Rlt_dec t rc) as [_|N].
      + apply Ga. split; [exact T1|]. cbn in *. unfold R_dist in *. lra.
      + exfalso. cbn in T3. unfold R_dist in T3. apply Rabs_def2 in T3. lra.
    - apply (cont_glue _ g (fun _ => 0)).
      + intros t Ht. destruct (Rlt_dec t rc); [reflexivity|lra].
      + intros t Ht. destruct (Rlt_dec t rc); [lra|reflexivity].
      + unfold g. rewrite scaled_rc. unfold ddpoly. ring.
      + apply Gc. + apply C0.
    - intros eps He. exists (x - rc). split; [lra|]. intros t [T1 T3]. cbn in *. unfold R_dist in *. apply Rabs_def2 in T3.
      destruct (Rlt_dec t rc); [lra|]. destruct (Rlt_dec x rc); [lra|]. rewrite Rminus_0_r, Rabs_R0. exact He. }
  destruct (Rtotal_order r rs) as [C|[->|C]].
  - intros eps He. exists (rs - r). split; [lra|]. intros t [T1 T3]. cbn in *. unfold R_dist in *. apply Rabs_def2 in T3.
    unfold switch_second. destruct (Rlt_dec t rs); [|lra]. destruct (Rlt_dec r rs); [|lra]. rewrite Rminus_0_r, Rabs_R0. exact He.
  - apply (cont_glue _ (fun _ => 0) (fun t => if Rlt_dec t rc then g t else 0)).
    + intros t Ht. unfold switch_second. destruct (Rlt_dec t rs); [reflexivity|lra].
    + intros t Ht. unfold switch_second. destruct (Rlt_dec t rs); [lra|]. reflexivity.
    + destruct (Rlt_dec rs rc); [|lra]. unfold g. rewrite scaled_rs. unfold ddpoly. ring.
    + apply C0. + apply Inner.
  - intros eps He. destruct (Inner r eps He) as (a & Ha & Ga). exists (Rmin a (r - rs)).
    split; [apply Rmin_pos; lra|]. intros t [T1 T3]. pose proof (Rmin_l a (r - rs)). pose proof (Rmin_r a (r - rs)).
    unfold switch_second. cbn in T3. unfold R_dist in T3. assert (T4 := T3). apply Rabs_def2 in T4.
    destruct (Rlt_dec t rs); [lra|]. destruct (Rlt_dec r rs); [lra|]. apply Ga. split; [exact T1|]. cbn. unfold R_dist. lra.
Qed.

Lemma dswitch_nonpos r : switch_deriv2r rc rs r <= 0.
Proof using Hrs.
  destruct (Rlt_dec r rs) as [C1|C1]; [rewrite dswitch_low by exact C1; lra|].
  destruct (Rlt_dec r rc) as [C2|C2]; [|rewrite dswitch_high by lra; lra].
  rewrite dswitch_mid by lra. rewrite dpoly_sq. assert (P : 0 < / (rc - rs)) by (apply Rinv_0_lt_compat; lra).
  pose proof (pow2_ge_0 (scaled r * (scaled r - 1))) as Q.
  assert (0 <= 30 * (scaled r * (scaled r - 1)) ^ 2 * / (rc - rs)) by (apply Rmult_le_pos; lra). lra.
Qed.

Lemma switch_decreasing r r' : r <= r' -> switch_result rc rs r' <= switch_result rc rs r.
Proof using Hrs. apply (nonpos_decreasing _ (switch_deriv2r rc rs)); [exact switch_dl|exact dswitch_nonpos]. Qed.

Lemma switch_at_rs : switch_result rc rs rs = 1.
Proof using Hrs. rewrite switch_mid by lra. rewrite scaled_rs. unfold poly. ring. Qed.

Lemma switch_range r : 0 <= switch_result rc rs r <= 1.
Proof using Hrs.
  split.
  - destruct (Rle_dec r rc) as [C|C].
    + rewrite <- (switch_high rc) by lra. apply switch_decreasing. exact C.
    + rewrite switch_high by lra. lra.
  - destruct (Rle_dec rs r) as [C|C].
    + rewrite <- switch_at_rs. apply switch_decreasing. exact C.
    + rewrite switch_low by lra. lra.
Qed.

End Switch.

(** *** Descriptor entries *)

Lemma recip_inv v : recip v = / v.
Proof. unfold recip. destruct (Req_EM_T v 0) as [->|N]; [symmetry; apply Rinv_0|]. field. exact N. Qed.

Lemma smooth_switch rc rs r : smooth_func rc rs r = switch_result rc rs r * / r.
Proof.
  unfold smooth_func, switch_result. change (if Req_EM_T r 0 then 0 else 1 / r) with (recip r). rewrite recip_inv.
  cbv zeta. destruct (Rlt_dec r rs); [ring|]. destruct (Rlt_dec r rc); ring.
Qed.

(** One neighbour moving along a curve. *)
Section Curve.
Variables (x y z : R -> R) (t dx dy dz : R).
Hypothesis Hx : derivable_pt_lim x t dx.
Hypothesis Hy : derivable_pt_lim y t dy.
Hypothesis Hz : derivable_pt_lim z t dz.
Let rad s := vnorm (x s, y s, z s).
Hypothesis Hr : rad t <> 0.

Lemma rad_pos : 0 < x t ^ 2 + y t ^ 2 + z t ^ 2.
Proof using Hr.
  unfold rad, vnorm, vx, vy, vz in Hr. cbn [fst snd] in Hr.
  destruct (Rle_lt_or_eq_dec 0 (x t ^ 2 + y t ^ 2 + z t ^ 2)) as [H|H]; [|exact H|].
  - pose proof (pow2_ge_0 (x t)); pose proof (pow2_ge_0 (y t)); pose proof (pow2_ge_0 (z t)); lra.
  - exfalso. apply Hr. rewrite <- H. apply sqrt_0.
Qed.

Lemma rad_dl : derivable_pt_lim rad t ((x t * dx + y t * dy + z t * dz) * / rad t).
Proof using Hx Hy Hz Hr.
  eapply dl_val; cycle 1.
  { unfold rad, vnorm, vx, vy, vz. cbn [fst snd].
    apply (dl_sqrt (fun s => x s ^ 2 + y s ^ 2 + z s ^ 2)); [|exact rad_pos].
    apply dl_plus; [apply dl_plus|]; apply dl_pow; eassumption. }
  change (sqrt (x t ^ 2 + y t ^ 2 + z t ^ 2)) with (rad t). cbn [INR Nat.pred pow]. field. exact Hr.
Qed.

Variables (sw : R -> R) (dsw : R).
Hypothesis Hsw : derivable_pt_lim sw (rad t) dsw.
Let rdot := (x t * dx + y t * dy + z t * dz) * / rad t.

Lemma s_dl : derivable_pt_lim (fun s => sw (rad s) * / rad s) t
  (dsw * rdot * / rad t - sw (rad t) * rdot * / rad t * / rad t).
Proof using Hx Hy Hz Hr Hsw.
  eapply dl_val; cycle 1.
  { apply dl_mult; [apply (dl_comp rad sw); [exact rad_dl|exact Hsw]|apply dl_inv; [exact rad_dl|exact Hr]]. }
  cbv beta. unfold rdot. field. exact Hr.
Qed.

Lemma sw_dl w dw : derivable_pt_lim w t dw -> derivable_pt_lim (fun s => sw (rad s) * / rad s * / rad s * w s) t
  (dsw * rdot * / rad t * / rad t * w t - 2 * sw (rad t) * rdot * / rad t * / rad t * / rad t * w t + sw (rad t) * / rad t * / rad t * dw).
Proof using Hx Hy Hz Hr Hsw.
  intros Hw. eapply dl_val; cycle 1.
  { apply dl_mult; [|exact Hw]. apply dl_mult; [exact s_dl|apply dl_inv; [exact rad_dl|exact Hr]]. }
  cbv beta. unfold rdot. field. exact Hr.
Qed.
End Curve.

(** The row as a plain formula. *)
Lemma tilde_row_eq rc rs d : tilde_row rc rs d =
  let r := vnorm d in let s := switch_result rc rs r * / r in [s; s * / r * vx d; s * / r * vy d; s * / r * vz d].
Proof. unfold tilde_row. cbv zeta. rewrite smooth_switch, recip_inv. reflexivity. Qed.

Ltac finish r := unfold env_deriv, pair_deriv, entry2; cbv zeta; cbn [nth]; rewrite ?recip_inv.

Lemma vnorm_0 d : vnorm d = 0 <-> d = (0, 0, 0).
Proof.
  destruct d as [[a b] c]. unfold vnorm, vx, vy, vz. cbn [fst snd].
  pose proof (pow2_ge_0 a); pose proof (pow2_ge_0 b); pose proof (pow2_ge_0 c). split.
  - intros E. apply sqrt_eq_0 in E; [|lra].
    assert (a ^ 2 = 0 /\ b ^ 2 = 0 /\ c ^ 2 = 0) as (A & B & C) by (repeat split; lra).
    assert (Z0 : forall w, w ^ 2 = 0 -> w = 0) by (intros w W; cbn in W; rewrite Rmult_1_r in W; apply Rmult_integral in W; tauto).
    rewrite (Z0 a A), (Z0 b B), (Z0 c C). reflexivity.
  - intros [= -> -> ->]. replace (0 ^ 2 + 0 ^ 2 + 0 ^ 2) with 0 by ring. apply sqrt_0.
Qed.

Lemma vsub_0 n c : vsub n c = (0, 0, 0) <-> n = c.
Proof.
  destruct n as [[a b] e], c as [[a' b'] e']. vec_unfold. split.
  - intros [= A B C]. repeat f_equal; lra.
  - intros [= -> -> ->]. repeat f_equal; ring.
Qed.

(** The displacement while the neighbour or the centre moves along axis k. *)
Lemma move_neigh rc rs n c k a : rs < rc -> n <> c -> (a < 4)%nat -> (k < 3)%nat ->
  partial k (fun p => entry a (tilde_row rc rs (vsub p c))) n (entry2 a k (env_deriv rc rs (vsub n c))).
Proof.
  intros Hrs N Ha Hk.
  assert (NZ : vnorm (vsub n c) <> 0) by (intros E; apply N, vsub_0, vnorm_0, E).
  destruct n as [[n0 n1] n2], c as [[c0 c1] c2]. unfold partial.
  pose (curve := fun (k' i : nat) (s : R) => (if Nat.eqb k' i then s else match i with 0%nat => n0 | 1%nat => n1 | _ => n2 end)
                     - match i with 0%nat => c0 | 1%nat => c1 | _ => c2 end).
  assert (Hd : forall i, derivable_pt_lim (curve k i) (coord k (n0, n1, n2)) (if Nat.eqb k i then 1 else 0)).
  { intros i. unfold curve. destruct (Nat.eqb k i).
    - eapply dl_val; [|apply dl_minus; [apply dl_id|apply dl_const]]. ring.
    - apply dl_const. }
  assert (Hv : forall s, vsub (with_coord k (n0, n1, n2) s) (c0, c1, c2) = (curve k 0%nat s, curve k 1%nat s, curve k 2%nat s)).
  { intros s. unfold curve. destruct k as [|[|[|k]]]; [reflexivity|reflexivity|reflexivity|lia]. }
  assert (Hat : (curve k 0%nat (coord k (n0, n1, n2)), curve k 1%nat (coord k (n0, n1, n2)), curve k 2%nat (coord k (n0, n1, n2))) = vsub (n0, n1, n2) (c0, c1, c2)).
  { rewrite <- Hv. destruct k as [|[|[|k]]]; [reflexivity|reflexivity|reflexivity|lia]. }
  set (t0 := coord k (n0, n1, n2)) in *.
  assert (NZ' : vnorm (curve k 0%nat t0, curve k 1%nat t0, curve k 2%nat t0) <> 0) by (rewrite Hat; exact NZ).
  pose proof (switch_dl rc rs Hrs (vnorm (curve k 0%nat t0, curve k 1%nat t0, curve k 2%nat t0))) as Hsw.
  assert (S0 := s_dl _ _ _ t0 _ _ _ (Hd 0%nat) (Hd 1%nat) (Hd 2%nat) NZ' _ _ Hsw).
  assert (S1 := fun w dw => sw_dl _ _ _ t0 _ _ _ (Hd 0%nat) (Hd 1%nat) (Hd 2%nat) NZ' _ _ Hsw w dw).
  assert (E : forall s, entry a (tilde_row rc rs (vsub (with_coord k (n0, n1, n2) s) (c0, c1, c2))) =
     match a with
     | 0%nat => switch_result rc rs (vnorm (curve k 0%nat s, curve k 1%nat s, curve k 2%nat s)) * / vnorm (curve k 0%nat s, curve k 1%nat s, curve k 2%nat s)
     | S i => switch_result rc rs (vnorm (curve k 0%nat s, curve k 1%nat s, curve k 2%nat s)) * / vnorm (curve k 0%nat s, curve k 1%nat s, curve k 2%nat s)
                * / vnorm (curve k 0%nat s, curve k 1%nat s, curve k 2%nat s) * curve k i s
     end).
  { intros s. rewrite Hv, tilde_row_eq. unfold entry. destruct a as [|[|[|[|a]]]]; [reflexivity|reflexivity|reflexivity|reflexivity|lia]. }
  destruct a as [|i].
  - eapply dl_ext; [intros s; symmetry; apply E|]. eapply dl_val; [|exact S0].
    rewrite Hat. assert (F : forall i, curve k i t0 = match i with 0%nat => n0 - c0 | 1%nat => n1 - c1 | _ => n2 - c2 end).
    { intros i. unfold curve, t0. destruct k as [|[|[|k]]]; [| | |lia]; destruct i as [|[|[|i]]]; reflexivity. }
    rewrite !F. unfold entry2, env_deriv. cbv zeta. rewrite recip_inv. cbn [vsub vx vy vz fst snd].
    change (vsub (n0, n1, n2) (c0, c1, c2)) with (n0 - c0, n1 - c1, n2 - c2) in *.
    destruct k as [|[|[|k]]]; [| | |lia]; cbn [nth Nat.eqb vx vy vz fst snd]; field; exact NZ.
  - eapply dl_ext; [intros s; symmetry; apply E|]. eapply dl_val; [|exact (S1 _ _ (Hd i))].
    rewrite Hat. assert (F : forall i, curve k i t0 = match i with 0%nat => n0 - c0 | 1%nat => n1 - c1 | _ => n2 - c2 end).
    { intros j. unfold curve, t0. destruct k as [|[|[|k]]]; [| | |lia]; destruct j as [|[|[|j]]]; reflexivity. }
    rewrite !F. unfold entry2, env_deriv. cbv zeta. rewrite recip_inv.
    change (vsub (n0, n1, n2) (c0, c1, c2)) with (n0 - c0, n1 - c1, n2 - c2) in *.
    destruct i as [|[|[|i]]]; [| | |lia]; destruct k as [|[|[|k]]]; try lia; cbn [nth Nat.eqb vx vy vz fst snd]; field; exact NZ.
Qed.

Lemma deriv_opposite rc rs d a k : (a < 4)%nat -> (k < 3)%nat -> entry2 a k (pair_deriv rc rs d) = - entry2 a k (env_deriv rc rs d).
Proof.
  intros Ha Hk. unfold entry2, pair_deriv, env_deriv. cbv zeta.
  destruct a as [|[|[|[|a]]]]; try lia; destruct k as [|[|[|k]]]; try lia; cbn [nth]; ring.
Qed.

(** Moving the centre by t is moving the neighbour by -t. *)
Lemma move_centre rc rs n c k a : rs < rc -> n <> c -> (a < 4)%nat -> (k < 3)%nat ->
  partial k (fun p => entry a (tilde_row rc rs (vsub n p))) c (entry2 a k (pair_deriv rc rs (vsub n c))).
Proof.
  intros Hrs N Ha Hk. rewrite deriv_opposite by assumption.
  assert (M := move_neigh rc rs n c k a Hrs N Ha Hk). unfold partial in *.
  apply (dl_ext (fun t => entry a (tilde_row rc rs (vsub (with_coord k n (coord k n + coord k c - t)) c)))).
  { intros t. do 2 f_equal. destruct n as [[n0 n1] n2], c as [[c0 c1] c2]. destruct k as [|[|[|k]]]; [| | |lia];
      cbn [with_coord coord]; vec_unfold; f_equal; [f_equal|f_equal| ]; ring. }
  eapply dl_val; cycle 1.
  { apply (dl_comp (fun t => coord k n + coord k c - t) (fun t => entry a (tilde_row rc rs (vsub (with_coord k n t) c)))).
    - apply dl_minus; [apply dl_const|apply dl_id].
    - replace (coord k n + coord k c - coord k c) with (coord k n) by ring. exact M. }
  ring.
Qed.

(** *** The Python variant *)

Lemma py_s_smooth rc rs r : rs < rc -> r < rc -> py_s rc rs r = smooth_func rc rs r.
Proof.
  intros H Hr. rewrite smooth_switch. unfold py_s. cbv zeta.
  assert (E : (if Req_EM_T r 0 then 0 else / r) = / r) by (destruct (Req_EM_T r 0) as [->|]; [symmetry; apply Rinv_0|reflexivity]).
  rewrite E. destruct (Rlt_dec rs r) as [C|C].
  - destruct (Rlt_dec r rc); [|lra]. rewrite (switch_mid rc rs r) by lra. unfold poly, scaled. ring.
  - destruct (Req_dec r rs) as [->|N].
    + rewrite switch_at_rs by exact H. ring.
    + rewrite (switch_low rc rs r) by lra. ring.
Qed.

Lemma py_s_far rc rs r : rs < rc -> rc <= r -> py_s rc rs r = / r.
Proof.
  intros H Hr. unfold py_s. cbv zeta.
  destruct (Rlt_dec rs r); [|lra]. destruct (Rlt_dec r rc); [lra|]. destruct (Req_EM_T r 0) as [->|]; [symmetry; apply Rinv_0|reflexivity].
Qed.

Lemma py_s_near rc rs r : rs < rc -> r <= rs -> py_s rc rs r = / r.
Proof.
  intros H Hr. unfold py_s. cbv zeta. destruct (Rlt_dec rs r); [lra|].
  destruct (Req_EM_T r 0) as [->|]; [symmetry; apply Rinv_0|reflexivity].
Qed.

Lemma smooth_dl rc rs r : rs < rc -> r <> 0 ->
  derivable_pt_lim (smooth_func rc rs) r (switch_deriv2r rc rs r * / r - switch_result rc rs r * / r * / r).
Proof.
  intros H N. apply (dl_ext (fun t => switch_result rc rs t * / t)); [intros t; symmetry; apply smooth_switch|].
  eapply dl_val; cycle 1.
  { apply dl_mult; [apply switch_dl, H|apply dl_inv; [apply dl_id|exact N]]. }
  cbv beta. field. exact N.
Qed.

(** Below the cutoff the derivative exists and is continuous. *)
Lemma py_s_dl rc rs r : rs < rc -> r < rc -> r <> 0 ->
  derivable_pt_lim (py_s rc rs) r (switch_deriv2r rc rs r * / r - switch_result rc rs r * / r * / r).
Proof.
  intros H Hr N. apply (dl_loc (smooth_func rc rs) _ _ _ (rc - r)); [lra| |apply smooth_dl; assumption].
  intros t Ht. apply Rabs_def2 in Ht. symmetry. apply py_s_smooth; lra.
Qed.

Lemma slope_cont rc rs r : rs < rc -> r <> 0 ->
  continuity_pt (fun t => switch_deriv2r rc rs t * / t - switch_result rc rs t * / t * / t) r.
Proof.
  intros H N. assert (I1 : derivable_pt_lim (fun t => / t) r (- 1 / (r * r))) by (apply (dl_inv (fun t => t)); [apply dl_id|exact N]).
  eapply dl_continuous. apply dl_minus.
  - apply dl_mult; [apply switch_second_dl, H|exact I1].
  - apply dl_mult; [apply dl_mult; [apply switch_dl, H|exact I1]|exact I1].
Qed.

Lemma py_s_smooth_inner rc rs : 0 < rs -> rs < rc ->
  exists s', (forall r, 0 < r < rc -> derivable_pt_lim (py_s rc rs) r (s' r)) /\
             (forall r, 0 < r < rc -> continuity_pt s' r) /\ s' rs = - / (rs * rs).
Proof.
  intros P H. exists (fun t => switch_deriv2r rc rs t * / t - switch_result rc rs t * / t * / t). repeat split.
  - intros r Hr. apply py_s_dl; lra.
  - intros r Hr. apply slope_cont; lra.
  - cbv beta. rewrite switch_at_rs by exact H. rewrite dswitch_mid by lra. rewrite scaled_rs by exact H. unfold dpoly. field. lra.
Qed.

Lemma smooth_at_rc rc rs : rs < rc -> smooth_func rc rs rc = 0.
Proof. intros H. rewrite smooth_switch, switch_high by lra. ring. Qed.

(** The left limit at the cutoff is 0. *)
Lemma py_s_left_limit rc rs : 0 < rc -> rs < rc -> forall eps, 0 < eps ->
  exists d, 0 < d /\ forall t, rc - d < t < rc -> Rabs (py_s rc rs t) < eps.
Proof.
  intros P H eps He. assert (C : continuity_pt (smooth_func rc rs) rc) by (eapply dl_continuous, smooth_dl; lra).
  destruct (C eps He) as (d & Hd & K). exists d. split; [exact Hd|]. intros t Ht.
  rewrite py_s_smooth by lra. assert (X := K t). cbn in X. unfold R_dist in X. rewrite smooth_at_rc, Rminus_0_r in X by exact H.
  apply X. split; [split; [exact I|lra]|]. apply Rabs_def1; lra.
Qed.

Lemma py_s_jump rc rs : 0 < rc -> rs < rc -> ~ continuity_pt (py_s rc rs) rc.
Proof.
  intros P H C. assert (S : continuity_pt (smooth_func rc rs) rc) by (eapply dl_continuous, smooth_dl; lra).
  assert (D := continuity_pt_minus _ _ _ C S). revert D. apply (jump_not_continuous _ _ 0).
  - unfold minus_fct. rewrite smooth_at_rc, py_s_far by lra. assert (0 < / rc) by (apply Rinv_0_lt_compat; lra). lra.
  - intros d Hd. exists (rc - Rmin d 1 / 2). assert (0 < Rmin d 1) by (apply Rmin_pos; lra). pose proof (Rmin_l d 1).
    split; [apply Rabs_def1; lra|]. unfold minus_fct. rewrite py_s_smooth by lra. ring.
Qed.

Lemma py_vv_switch rc rs r : rs < rc -> r < rc -> py_vv rc rs r = switch_result rc rs r.
Proof. intros H Hr. unfold py_vv, switch_result. cbv zeta. destruct (Rlt_dec r rs); [reflexivity|]. destruct (Rlt_dec r rc); [reflexivity|lra]. Qed.
Lemma py_dvv_switch rc rs r : rs < rc -> r < rc -> py_dvv rc rs r = switch_deriv2r rc rs r.
Proof. intros H Hr. unfold py_dvv, switch_deriv2r. cbv zeta. destruct (Rlt_dec r rs); [reflexivity|]. destruct (Rlt_dec r rc); [ring|lra]. Qed.

Lemma py_deriv_pair rc rs d a k : rs < rc -> vnorm d < rc -> entry2 a k (py_deriv rc rs (vnorm d) d) = entry2 a k (pair_deriv rc rs d).
Proof.
  intros H Hd. unfold entry2, py_deriv, pair_deriv. cbv zeta. rewrite py_vv_switch, py_dvv_switch by assumption.
  assert (E : (if Req_EM_T (vnorm d) 0 then 0 else / vnorm d) = recip (vnorm d)).
  { rewrite recip_inv. destruct (Req_EM_T (vnorm d) 0) as [->|]; [symmetry; apply Rinv_0|reflexivity]. }
  rewrite E. destruct a as [|[|[|[|a]]]]; destruct k as [|[|[|k]]]; cbn [nth]; try ring; destruct k; try reflexivity; destruct a; reflexivity.
Qed.

Lemma py_row_tilde rc rs d : rs < rc -> vnorm d < rc -> py_tilde_row rc rs (vnorm d) d = tilde_row rc rs d.
Proof.
  intros H Hd. unfold py_tilde_row, tilde_row. cbv zeta. rewrite py_s_smooth by assumption.
  assert (E : (if Req_EM_T (vnorm d) 0 then 0 else / vnorm d) = recip (vnorm d)).
  { rewrite recip_inv. destruct (Req_EM_T (vnorm d) 0) as [->|]; [symmetry; apply Rinv_0|reflexivity]. }
  rewrite E. reflexivity.
Qed.

(** The norm is continuous along an axis. *)
Lemma vnorm_cont k n c : n <> c -> continuity_pt (fun t => vnorm (vsub n (with_coord k c t))) (coord k c).
Proof.
  intros N. destruct n as [[n0 n1] n2], c as [[c0 c1] c2].
  assert (NZ : vnorm (vsub (n0, n1, n2) (c0, c1, c2)) <> 0) by (intros E; apply N, vsub_0, vnorm_0, E).
  assert (M : forall a b, derivable_pt_lim (fun t => a - t) b (0 - 1)) by (intros a b; apply dl_minus; [apply dl_const|apply dl_id]).
  destruct k as [|[|k]]; cbn [with_coord coord]; vec_unfold; eapply dl_continuous.
  - exact (rad_dl (fun t => n0 - t) (fun _ => n1 - c1) (fun _ => n2 - c2) c0 _ _ _ (M n0 c0) (dl_const _ _) (dl_const _ _) NZ).
  - exact (rad_dl (fun _ => n0 - c0) (fun t => n1 - t) (fun _ => n2 - c2) c1 _ _ _ (dl_const _ _) (M n1 c1) (dl_const _ _) NZ).
  - exact (rad_dl (fun _ => n0 - c0) (fun _ => n1 - c1) (fun t => n2 - t) c2 _ _ _ (dl_const _ _) (dl_const _ _) (M n2 c2) NZ).
Qed.

Lemma py_move_centre rc rs n c k a : rs < rc -> 0 < vnorm (vsub n c) < rc -> (a < 4)%nat -> (k < 3)%nat ->
  partial k (fun p => entry a (py_tilde_row rc rs (vnorm (vsub n p)) (vsub n p))) c
    (entry2 a k (py_deriv rc rs (vnorm (vsub n c)) (vsub n c))).
Proof.
  intros H [P Q] Ha Hk. assert (N : n <> c). { intros E. rewrite (proj2 (vnorm_0 _) (proj2 (vsub_0 n c) E)) in P. lra. }
  rewrite py_deriv_pair by assumption. assert (M := move_centre rc rs n c k a H N Ha Hk). unfold partial in *.
  assert (C := vnorm_cont k n c N (rc - vnorm (vsub n c)) ltac:(lra)). destruct C as (d & Hd & K).
  apply (dl_loc (fun t => entry a (tilde_row rc rs (vsub n (with_coord k c t)))) _ _ _ d); [exact Hd| |exact M].
  intros t Ht. rewrite py_row_tilde; [reflexivity|exact H|].
  assert (W : with_coord k c (coord k c) = c) by (destruct c as [[? ?] ?], k as [|[|?]]; reflexivity).
  destruct (Req_dec (coord k c) t) as [<-|D]; [rewrite W; exact Q|].
  assert (X := K t). cbn in X. unfold R_dist in X. rewrite W in X.
  assert (Y : Rabs (vnorm (vsub n (with_coord k c t)) - vnorm (vsub n c)) < rc - vnorm (vsub n c)).
  { apply X. split; [split; [exact I|exact D]|exact Ht]. }
  apply Rabs_def2 in Y. lra.
Qed.

(** At the cutoff the table says 0 while the entries jump. *)
Lemma py_deriv_at_cutoff rc rs n c k a : rs < rc -> 0 < rc -> vnorm (vsub n c) = rc -> (a < 4)%nat -> (k < 3)%nat ->
  entry2 a k (py_deriv rc rs (vnorm (vsub n c)) (vsub n c)) = 0 /\
  entry 0 (py_tilde_row rc rs (vnorm (vsub n c)) (vsub n c)) = / rc.
Proof.
  intros H P E Ha Hk. rewrite E. split.
  - unfold entry2, py_deriv. cbv zeta.
    assert (V : py_vv rc rs rc = 0). { unfold py_vv. cbv zeta. destruct (Rlt_dec rc rs); [lra|]. field. lra. }
    assert (D : py_dvv rc rs rc = 0). { unfold py_dvv. cbv zeta. destruct (Rlt_dec rc rs); [lra|]. field. lra. }
    rewrite V, D. destruct a as [|[|[|[|a]]]]; try lia; destruct k as [|[|[|k]]]; try lia; cbn [nth]; ring.
  - unfold entry, py_tilde_row. cbv zeta. cbn [nth]. apply py_s_far; lra.
Qed.

(** basis.h: the same function on its interval, refusing other distances. *)
Lemma basis_switch rmax rmin r : rmin < rmax ->
  (rmin <= r <= rmax -> basis_switch_val rmax rmin r = Ok (switch_result rmax rmin r) /\
                        basis_switch_der2r rmax rmin r = Ok (switch_deriv2r rmax rmin r)) /\
  (r < rmin \/ rmax < r -> basis_switch_val rmax rmin r = Err AssertionError /\ basis_switch_der2r rmax rmin r = Err AssertionError).
Proof.
  intros H. unfold basis_switch_val, basis_switch_der2r, switch_result, switch_deriv2r. cbv zeta. split.
  - intros [A B]. destruct (Rle_dec rmin r); [|lra]. destruct (Rle_dec r rmax); [|lra].
    destruct (Rlt_dec r rmin); [lra|]. destruct (Rlt_dec r rmax); split; reflexivity.
  - intros C. destruct (Rle_dec rmin r); [|split; reflexivity]. destruct (Rle_dec r rmax); [lra|split; reflexivity].
Qed.

(** *** Forms used by the properties *)

Lemma switch_plateaus rc rs : rs < rc -> forall r,
  (r <= rs -> switch_result rc rs r = 1) /\ (rc <= r -> switch_result rc rs r = 0).
Proof.
  intros H r. split.
  - intros L. destruct (Req_dec r rs) as [->|N]; [apply switch_at_rs, H|apply switch_low; lra].
  - apply switch_high, H.
Qed.

Lemma poly_alt u : poly u = (1 - u) ^ 3 * (6 * u ^ 2 + 3 * u + 1).
Proof. unfold poly. ring. Qed.

Lemma switch_ranges rc rs : rs < rc -> forall r,
  0 <= switch_result rc rs r <= 1 /\ (rs < r < rc -> 0 < switch_result rc rs r < 1).
Proof.
  intros H r. split; [apply switch_range, H|]. intros [A B]. rewrite switch_mid by lra.
  assert (U : 0 < scaled rc rs r < 1).
  { unfold scaled, Rdiv. assert (P : 0 < / (rc - rs)) by (apply Rinv_0_lt_compat; lra).
    split; [apply Rmult_lt_0_compat; lra|]. apply (Rmult_lt_reg_r (rc - rs)); [lra|]. rewrite Rmult_assoc, Rinv_l; lra. }
  set (u := scaled rc rs r) in *. clearbody u. split.
  - rewrite poly_alt. apply Rmult_lt_0_compat; [apply pow_lt; lra|]. pose proof (pow2_ge_0 u). lra.
  - unfold poly. assert (0 < u ^ 3) by (apply pow_lt; lra).
    assert (0 < u ^ 3 * (6 * u ^ 2 - 15 * u + 10)); [|lra].
    apply Rmult_lt_0_compat; [assumption|]. assert (0 < (1 - u) * (1 - u)) by (apply Rmult_lt_0_compat; lra). nra.
Qed.

Lemma switch_twice rc rs : rs < rc -> exists s'', forall r,
  derivable_pt_lim (switch_deriv2r rc rs) r (s'' r) /\ continuity_pt s'' r.
Proof. intros H. exists (switch_second rc rs). intros r. split; [apply switch_second_dl, H|apply switch_second_cont, H]. Qed.

Lemma switch_half : switch_result 6 4 5 = 1 / 2 /\ switch_deriv2r 6 4 5 = - (15 / 16).
Proof.
  unfold switch_result, switch_deriv2r. cbv zeta. destruct (Rlt_dec 5 4); [lra|]. destruct (Rlt_dec 5 6); [|lra]. split; field.
Qed.

Lemma beyond_cutoff rc rs d : rs < rc -> rc <= vnorm d ->
  (forall a, entry a (tilde_row rc rs d) = 0) /\
  (forall a k, entry2 a k (pair_deriv rc rs d) = 0 /\ entry2 a k (env_deriv rc rs d) = 0).
Proof.
  intros H Hd. split.
  - intros a. rewrite tilde_row_eq. cbv zeta. rewrite switch_high by assumption. unfold entry.
    destruct a as [|[|[|[|[|a]]]]]; cbn [nth]; ring.
  - intros a k. unfold entry2, pair_deriv, env_deriv. cbv zeta. rewrite switch_high, dswitch_high by assumption.
    split; destruct a as [|[|[|[|[|a]]]]]; destruct k as [|[|[|[|k]]]]; cbn [nth]; ring.
Qed.

Lemma norm_345 : vnorm (vsub (3, 4, 0) (0, 0, 0)) = 5.
Proof.
  unfold vnorm. vec_unfold. replace ((3 - 0) ^ 2 + (4 - 0) ^ 2 + (0 - 0) ^ 2) with (5 * 5) by ring. apply sqrt_square. lra.
Qed.

Lemma norm_case : 0 < vnorm (vsub (3, 4, 0) (0, 0, 0)) < 6 /\ vnorm (vsub (3, 4, 0) (0, 0, 0)) = 5.
Proof. rewrite norm_345. lra. Qed.

Lemma deriv_case : (3, 4, 0) <> (0, 0, 0) /\ vnorm (vsub (3, 4, 0) (0, 0, 0)) = 5 /\
  entry2 0 0 (pair_deriv 10 6 (3, 4, 0)) = 3 / 125.
Proof.
  split; [|split; [apply norm_345|]].
  - intros E. apply (f_equal (fun v => vx v)) in E. unfold vx in E. cbn in E. lra.
  - assert (N : vnorm (3, 4, 0) = 5) by (rewrite <- norm_345; f_equal; vec_unfold; repeat f_equal; ring).
    unfold entry2, pair_deriv. cbv zeta. rewrite N, recip_inv. rewrite switch_low, dswitch_low by lra.
    cbn [nth]. unfold vx. cbn [fst snd]. field.
Qed.

Lemma py_s_jumps rc rs : 0 < rc -> rs < rc -> (forall r, rc <= r -> py_s rc rs r = / r) /\ ~ continuity_pt (py_s rc rs) rc.
Proof. intros P H. split; [intros r; apply py_s_far, H|apply py_s_jump; assumption]. Qed.

Lemma py_s_case : py_s 6 4 5 = / 10 /\ py_s 6 4 6 = / 6.
Proof.
  split.
  - unfold py_s. cbv zeta. destruct (Rlt_dec 4 5); [|lra]. destruct (Rlt_dec 5 6); [|lra]. destruct (Req_EM_T 5 0); [lra|]. field.
  - apply py_s_far; lra.
Qed.

(** Beyond the cutoff: r = 5, rcut = 4, inner radius 3. *)
Lemma py_deriv_beyond : exists rc rs n c k a, 0 < rs < rc /\ rc < vnorm (vsub n c) /\ (a < 4)%nat /\ (k < 3)%nat /\
  ~ partial k (fun p => entry a (py_tilde_row rc rs (vnorm (vsub n p)) (vsub n p))) c
    (entry2 a k (py_deriv rc rs (vnorm (vsub n c)) (vsub n c))).
Proof.
  exists 4, 3, (5, 0, 0), (0, 0, 0), 0%nat, 0%nat. 
  assert (N : forall t, t < 5 -> vnorm (vsub (5, 0, 0) (t, 0, 0)) = 5 - t).
  { intros t Ht. unfold vnorm. vec_unfold. replace ((5 - t) ^ 2 + (0 - 0) ^ 2 + (0 - 0) ^ 2) with ((5 - t) * (5 - t)) by ring. apply sqrt_square. lra. }
  assert (N0 : vnorm (vsub (5, 0, 0) (0, 0, 0)) = 5) by (rewrite N; lra).
  split; [lra|]. split; [rewrite N0; lra|]. split; [lia|]. split; [lia|]. intros D.
  unfold partial in D. cbn [coord with_coord] in D. unfold vx, vy, vz in D. cbn [fst snd] in D.
  assert (D' : derivable_pt_lim (fun t => entry 0 (py_tilde_row 4 3 (vnorm (vsub (5, 0, 0) (t, 0, 0))) (vsub (5, 0, 0) (t, 0, 0)))) 0 (/ 25)).
  { apply (dl_loc (fun t => / (5 - t)) _ _ _ 1); [lra| |].
    - intros t Ht. apply Rabs_def2 in Ht. unfold entry, py_tilde_row. cbv zeta. cbn [nth]. rewrite N by lra. rewrite py_s_far; lra.
    - eapply dl_val; [|apply (dl_inv (fun t => 5 - t)); [apply dl_minus; [apply dl_const|apply dl_id]|lra]]. field. }
  assert (E := dl_unique _ _ _ _ D D'). revert E. unfold entry2, py_deriv. cbv zeta. rewrite N0.
  unfold py_vv, py_dvv. cbv zeta. destruct (Rlt_dec 5 3); [lra|]. destruct (Req_EM_T 5 0); [lra|]. cbn [nth]. vec_unfold.
  intros E. apply (Rmult_eq_compat_l 125) in E. field_simplify in E. lra.
Qed.
