(** Lemmas about the radial basis. *)
From Verif Require Import RDeriv ChebModel ChebSpec SeSpec SeProofs TextProofs.
Open Scope R_scope.

(** *** The polynomials *)
Fixpoint Tpair (n : nat) (u : R) : R * R :=
  match n with 0%nat => (1, u) | S k => let '(a, b) := Tpair k u in (b, 2 * u * b - a) end.
Definition T (n : nat) (u : R) : R := fst (Tpair n u).
Lemma Tpair_snd n u : snd (Tpair n u) = T (S n) u.
Proof. unfold T. cbn [Tpair]. destruct (Tpair n u). reflexivity. Qed.
Lemma T_0 u : T 0 u = 1. Proof. reflexivity. Qed.
Lemma T_1 u : T 1 u = u. Proof. reflexivity. Qed.
Lemma T_SS n u : T (S (S n)) u = 2 * u * T (S n) u - T n u.
Proof. rewrite <- (Tpair_snd (S n)). cbn [Tpair]. rewrite <- (Tpair_snd n). unfold T. destruct (Tpair n u). reflexivity. Qed.
Fixpoint Dpair (n : nat) (u : R) : R * R :=
  match n with 0%nat => (0, 1) | S k => let '(a, b) := Dpair k u in (b, 2 * T (S k) u + 2 * u * b - a) end.
Definition D (n : nat) (u : R) : R := fst (Dpair n u).
Lemma Dpair_snd n u : snd (Dpair n u) = D (S n) u.
Proof. unfold D. cbn [Dpair]. destruct (Dpair n u). reflexivity. Qed.
Lemma D_0 u : D 0 u = 0. Proof. reflexivity. Qed.
Lemma D_1 u : D 1 u = 1. Proof. reflexivity. Qed.
Lemma D_SS n u : D (S (S n)) u = 2 * T (S n) u + 2 * u * D (S n) u - D n u.
Proof. rewrite <- (Dpair_snd (S n)). cbn [Dpair]. rewrite <- (Dpair_snd n). unfold D. destruct (Dpair n u). reflexivity. Qed.
Global Opaque T D.

Lemma two_step (P : nat -> Prop) : P 0%nat -> P 1%nat -> (forall n, P n -> P (S n) -> P (S (S n))) -> forall n, P n.
Proof. intros A B C n. enough (P n /\ P (S n)) by tauto. induction n as [|n [X Y]]; split; auto. Qed.

Lemma T_cos : chebyshev T.
Proof.
  intros n theta. revert n. apply two_step.
  - rewrite T_0. cbn [INR]. rewrite Rmult_0_l, cos_0. reflexivity.
  - rewrite T_1. cbn [INR]. rewrite Rmult_1_l. reflexivity.
  - intros n A B. rewrite T_SS, A, B. rewrite !S_INR.
    replace ((INR n + 1 + 1) * theta) with ((INR n + 1) * theta + theta) by ring.
    replace (INR n * theta) with ((INR n + 1) * theta - theta) by ring.
    rewrite cos_plus, cos_minus. ring.
Qed.

Lemma T_dl n u : derivable_pt_lim (T n) u (D n u).
Proof.
  revert n. apply two_step.
  - rewrite D_0. apply (dl_ext (fun _ => 1)); [intros t; symmetry; apply T_0|apply dl_const].
  - rewrite D_1. apply (dl_ext (fun t => t)); [intros t; symmetry; apply T_1|apply dl_id].
  - intros n A B. rewrite D_SS. apply (dl_ext (fun t => 2 * t * T (S n) t - T n t)); [intros t; symmetry; apply T_SS|].
    eapply dl_val; cycle 1.
    { apply dl_minus; [apply dl_mult; [apply dl_scal, dl_id|exact B]|exact A]. }
    cbv beta. ring.
Qed.

Lemma T_bound n u : -1 <= u <= 1 -> Rabs (T n u) <= 1.
Proof.
  intros H. rewrite <- (cos_acos u H). rewrite T_cos. apply Rabs_le. split; [apply COS_bound|apply COS_bound].
Qed.

(** *** The loop *)
Definition done (k : nat) (u c : R) (t : tables) : Prop :=
  let '(v, d, e) := t in forall j, (j < k)%nat ->
  nth_error v j = Some (T j u) /\ nth_error d j = Some (D j u) /\ nth_error e j = Some (D j u * c).

Lemma cheb_step_ok size u c st k : sized size st -> done k u c st -> (k < size)%nat ->
  exists st', cheb_step u c st k = Ok st' /\ sized size st' /\ done (S k) u c st'.
Proof.
  destruct st as [[v d] e]. intros (L1 & L2 & L3) Hd K. unfold cheb_step.
  assert (X : match k with
        | 0%nat => Ok (1, 0)
        | 1%nat => Ok (u, 1)
        | _ => bind (get v (k - 1)) (fun v1 => bind (get v (k - 2)) (fun v2 =>
               bind (get d (k - 1)) (fun d1 => bind (get d (k - 2)) (fun d2 =>
               Ok (2 * u * v1 - v2, 2 * v1 + 2 * u * d1 - d2)))))
        end = Ok (T k u, D k u)).
  { destruct k as [|[|k]]; [reflexivity|reflexivity|].
    replace (S (S k) - 1)%nat with (S k) by lia. replace (S (S k) - 2)%nat with k by lia.
    destruct (Hd (S k) ltac:(lia)) as (A1 & A2 & _). destruct (Hd k ltac:(lia)) as (B1 & B2 & _).
    rewrite (get_some _ _ _ A1), (get_some _ _ _ A2), (get_some _ _ _ B1), (get_some _ _ _ B2). cbn [bind].
    rewrite T_SS, D_SS. reflexivity. }
  rewrite X. cbn [bind fst snd].
  destruct (set_ok v k (T k u)) as (v' & E1 & M1 & N1); [lia|].
  destruct (set_ok d k (D k u)) as (d' & E2 & M2 & N2); [lia|]. rewrite E1. cbn [bind]. rewrite E2. cbn [bind].
  rewrite (get_some d' k (D k u)) by (rewrite N2, Nat.eqb_refl; reflexivity). cbn [bind].
  destruct (set_ok e k (D k u * c)) as (e' & E3 & M3 & N3); [lia|]. rewrite E3. cbn [bind].
  exists (v', d', e'). split; [reflexivity|]. split; [repeat split; congruence|].
  intros j J. rewrite N1, N2, N3. destruct (Nat.eqb_spec j k) as [->|N]; [repeat split|]. apply Hd. lia.
Qed.

Lemma cheb_loop_ok size u c old : sized size old ->
  cheb_loop size u c old = Ok (map (fun n => T n u) (seq 0 size), map (fun n => D n u) (seq 0 size), map (fun n => D n u * c) (seq 0 size)).
Proof.
  intros S0. unfold cheb_loop.
  assert (G : forall m k st, (k + m = size)%nat -> sized size st -> done k u c st ->
     exists st', foldM (cheb_step u c) (seq k m) st = Ok st' /\ sized size st' /\ done size u c st').
  { induction m as [|m IH]; intros k st E A B; [exists st; replace size with k by lia; cbn; repeat split; try reflexivity; [replace k with size by lia; exact A|exact B]|].
    cbn [seq foldM]. destruct (cheb_step_ok size u c st k A B ltac:(lia)) as (st' & E' & A' & B'). rewrite E'. cbn [bind].
    apply IH; [lia|exact A'|exact B']. }
  destruct (G size 0%nat old eq_refl S0) as ([[v d] e] & E & (L1 & L2 & L3) & Hd).
  { destruct old as [[? ?] ?]. intros j J. lia. }
  rewrite E. assert (Q : forall (f : nat -> R) (l : list R), length l = size -> (forall j, (j < size)%nat -> nth_error l j = Some (f j)) -> l = map f (seq 0 size)).
  { intros f l L H. apply nth_error_ext; [rewrite map_length, seq_length; exact L|]. intros i I. rewrite H by lia.
    rewrite nth_error_map, nth_error_nth' with (d := 0%nat) by (rewrite seq_length; lia). rewrite seq_nth by lia. reflexivity. }
  rewrite (Q _ v L1 (fun j J => proj1 (Hd j J))). rewrite (Q _ d L2 (fun j J => proj1 (proj2 (Hd j J)))).
  rewrite (Q _ e L3 (fun j J => proj2 (proj2 (Hd j J)))). reflexivity.
Qed.

Lemma mapM_ok_in {A B} (f : A -> result B) (g : A -> B) l : (forall x, In x l -> f x = Ok (g x)) -> mapM f l = Ok (map g l).
Proof.
  induction l as [|x l IH]; intros H; [reflexivity|]. cbn [mapM map]. rewrite (H x (or_introl eq_refl)). cbn [bind].
  rewrite IH by (intros; apply H; right; assumption). reflexivity.
Qed.
Lemma get_map_seq {A} (f : nat -> A) size ii : (ii < size)%nat -> get (map f (seq 0 size)) ii = Ok (f ii).
Proof.
  intros H. apply get_some. rewrite nth_error_map, nth_error_nth' with (d := 0%nat) by (rewrite seq_length; lia). rewrite seq_nth by lia. reflexivity.
Qed.
Lemma nth_map_seq {A} (f : nat -> A) size ii d : (ii < size)%nat -> nth ii (map f (seq 0 size)) d = f ii.
Proof.
  intros H. rewrite (nth_indep _ d (f 0%nat)) by (rewrite map_length, seq_length; exact H). rewrite map_nth, seq_nth by exact H. reflexivity.
Qed.

(** *** The scaled distance *)
Lemma to_unit_range hi lo r : lo < hi -> lo <= r <= hi -> -1 <= to_unit hi lo r <= 1.
Proof.
  intros H [A B]. unfold to_unit. assert (P : 0 < hi - lo) by lra. split; apply (Rmult_le_reg_r (hi - lo)); try exact P;
  unfold Rdiv; rewrite Rmult_assoc, Rinv_l; lra.
Qed.
Lemma to_unit_dl hi lo r : derivable_pt_lim (to_unit hi lo) r (2 / (hi - lo)).
Proof.
  apply (dl_ext (fun t => / (hi - lo) * (2 * t - (hi + lo)))); [intros t; unfold to_unit, Rdiv; ring|]. eapply dl_val; cycle 1.
  { apply dl_scal, dl_minus; [apply dl_scal, dl_id|apply dl_const]. }
  unfold Rdiv. ring.
Qed.
Lemma T_unit_dl n hi lo r : derivable_pt_lim (fun t => T n (to_unit hi lo t)) r (D n (to_unit hi lo r) * (2 / (hi - lo))).
Proof. apply (dl_comp (to_unit hi lo) (T n)); [apply to_unit_dl|apply T_dl]. Qed.

(** *** RB_Chebyshev and RQ_Chebyshev *)
Lemma rb_ok : exists V DV : nat -> R -> R, chebyshev V /\ (forall n u, derivable_pt_lim (V n) u (DV n u)) /\
  forall size rmax rmin r old, rmin < rmax -> rmin <= r <= rmax -> sized size old ->
  exists DR, (forall n, derivable_pt_lim (fun t => V n (to_unit rmax rmin t)) r (DR n)) /\
  rb_build size rmax rmin r old =
  Ok (map (fun n => V n (to_unit rmax rmin r)) (seq 0 size), map (fun n => DV n (to_unit rmax rmin r)) (seq 0 size), map DR (seq 0 size)).
Proof.
  exists T, D. split; [exact T_cos|]. split; [exact T_dl|]. intros size rmax rmin r old H [A B] S0.
  exists (fun n => D n (to_unit rmax rmin r) * (2 / (rmax - rmin))). split; [intros n; apply T_unit_dl|].
  unfold rb_build. destruct (Rle_dec rmin r); [|lra]. destruct (Rle_dec r rmax); [|lra]. rewrite cheb_loop_ok by exact S0. reflexivity.
Qed.
Lemma rb_outside size rmax rmin r old : r < rmin \/ rmax < r -> rb_build size rmax rmin r old = Err AssertionError.
Proof. intros H. unfold rb_build. destruct (Rle_dec rmin r); [|reflexivity]. destruct (Rle_dec r rmax); [lra|reflexivity]. Qed.
Lemma rb_bound size rmax rmin r old v d e : rmin < rmax -> sized size old -> rb_build size rmax rmin r old = Ok (v, d, e) ->
  Forall (fun x => Rabs x <= 1) v.
Proof.
  intros H S0. unfold rb_build. destruct (Rle_dec rmin r); [|discriminate]. destruct (Rle_dec r rmax); [|discriminate].
  rewrite cheb_loop_ok by exact S0. intros [= <- _ _]. apply Forall_forall. intros x X. apply in_map_iff in X. destruct X as (n & <- & _).
  apply T_bound. change ((2 * r - (rmax + rmin)) / (rmax - rmin)) with (to_unit rmax rmin r). apply to_unit_range; [exact H|split; assumption].
Qed.

Lemma rq_ok : exists V : nat -> R -> R, chebyshev V /\
  forall size rmax rmin r old, rmin < rmax -> rmin <= r <= rmax -> sized size old ->
  exists DR, (forall n, derivable_pt_lim (fun t => switch_result rmax rmin t * V n (to_unit rmax rmin t)) r (DR n)) /\
  rq_build size rmax rmin r old =
  Ok (map (fun n => switch_result rmax rmin r * V n (to_unit rmax rmin r)) (seq 0 size), map DR (seq 0 size)).
Proof.
  exists T. split; [exact T_cos|]. intros size rmax rmin r old H [A B] S0.
  exists (fun n => switch_deriv2r rmax rmin r * T n (to_unit rmax rmin r) + switch_result rmax rmin r * (D n (to_unit rmax rmin r) * (2 / (rmax - rmin)))).
  split.
  { intros n. apply (dl_mult (switch_result rmax rmin) (fun t => T n (to_unit rmax rmin t))); [apply switch_dl, H|apply T_unit_dl]. }
  unfold rq_build, rb_build. destruct (Rle_dec rmin r); [|lra]. destruct (Rle_dec r rmax); [|lra]. rewrite cheb_loop_ok by exact S0. cbn [bind].
  destruct (basis_switch rmax rmin r H) as [C _]. destruct (C (conj A B)) as [C1 C2]. rewrite C1, C2. cbn [bind].
  change ((2 * r - (rmax + rmin)) / (rmax - rmin)) with (to_unit rmax rmin r).
  rewrite (mapM_ok_in _ (fun n => switch_result rmax rmin r * T n (to_unit rmax rmin r))).
  2:{ intros ii I. apply in_seq in I. rewrite get_map_seq by lia. reflexivity. }
  cbn [bind].
  rewrite (mapM_ok_in _ (fun n => switch_deriv2r rmax rmin r * T n (to_unit rmax rmin r) + switch_result rmax rmin r * (D n (to_unit rmax rmin r) * (2 / (rmax - rmin))))).
  2:{ intros ii I. apply in_seq in I. rewrite !get_map_seq by lia. reflexivity. }
  reflexivity.
Qed.

(** *** MtpQ *)
Lemma vv_mid rc rs r : rs <= r -> vv_result rc rs r = switch_result rc rs r /\ vv_deriv2r rc rs r = switch_deriv2r rc rs r.
Proof.
  intros A. unfold vv_result, vv_deriv2r, switch_result, switch_deriv2r. cbv zeta. destruct (Rlt_dec r rs); [lra|]. destruct (Rlt_dec r rc); split; reflexivity.
Qed.
Lemma vv_low rc rs r : r < rs -> vv_result rc rs r = 0 /\ vv_deriv2r rc rs r = 0.
Proof. intros A. unfold vv_result, vv_deriv2r. cbv zeta. destruct (Rlt_dec r rs); [split; reflexivity|lra]. Qed.

Definition Q (rc rs : R) (n : nat) (r : R) : R :=
  if Rlt_dec r rs then 0 else if Rlt_dec r rc then T n (to_unit rc rs r) * switch_result rc rs r else 0.
Definition DQ (rc rs : R) (n : nat) (r : R) : R :=
  if Rlt_dec r rs then 0 else if Rlt_dec r rc then D n (to_unit rc rs r) * (2 / (rc - rs)) * switch_result rc rs r + T n (to_unit rc rs r) * switch_deriv2r rc rs r else 0.

Lemma mq_build_ok size rc rs r old : sized size old ->
  mq_build size rc rs r old = Ok (map (fun n => Q rc rs n r) (seq 0 size), map (fun n => DQ rc rs n r) (seq 0 size)).
Proof.
  intros S0. unfold mq_build, poly_build.
  assert (Z : forall ii, (ii < size)%nat -> get (repeat 0 size) ii = Ok 0).
  { intros ii I. rewrite (get_ok _ ii 0) by (rewrite repeat_length; exact I). rewrite nth_repeat. reflexivity. }
  destruct (Rle_dec rs r) as [A|A]; [destruct (Rlt_dec r rc) as [B|B]|].
  - rewrite cheb_loop_ok by exact S0. cbn [bind]. destruct (vv_mid rc rs r A) as [-> ->].
    rewrite (mapM_ok_in _ (fun n => Q rc rs n r)).
    2:{ intros ii I. apply in_seq in I. rewrite get_map_seq by lia. cbn [bind]. unfold Q. destruct (Rlt_dec r rs); [lra|]. destruct (Rlt_dec r rc); [reflexivity|lra]. }
    cbn [bind]. rewrite (mapM_ok_in _ (fun n => DQ rc rs n r)); [reflexivity|].
    intros ii I. apply in_seq in I. rewrite !get_map_seq by lia. cbn [bind]. unfold DQ. destruct (Rlt_dec r rs); [lra|]. destruct (Rlt_dec r rc); [reflexivity|lra].
  - cbn [bind]. rewrite (mapM_ok_in _ (fun n => Q rc rs n r)).
    2:{ intros ii I. apply in_seq in I. rewrite Z by lia. cbn [bind]. unfold Q. destruct (Rlt_dec r rs); [lra|]. destruct (Rlt_dec r rc); [lra|]. f_equal; ring. }
    cbn [bind]. rewrite (mapM_ok_in _ (fun n => DQ rc rs n r)); [reflexivity|].
    intros ii I. apply in_seq in I. rewrite !Z by lia. cbn [bind]. unfold DQ. destruct (Rlt_dec r rs); [lra|]. destruct (Rlt_dec r rc); [lra|]. f_equal; ring.
  - cbn [bind]. rewrite (mapM_ok_in _ (fun n => Q rc rs n r)).
    2:{ intros ii I. apply in_seq in I. rewrite Z by lia. cbn [bind]. unfold Q. destruct (Rlt_dec r rs); [|lra]. f_equal; ring. }
    cbn [bind]. rewrite (mapM_ok_in _ (fun n => DQ rc rs n r)); [reflexivity|].
    intros ii I. apply in_seq in I. rewrite !Z by lia. cbn [bind]. unfold DQ. destruct (Rlt_dec r rs); [|lra]. f_equal; ring.
Qed.

Lemma Q_dl rc rs n r : rs < rc -> r <> rs -> derivable_pt_lim (Q rc rs n) r (DQ rc rs n r).
Proof.
  intros H N. destruct (Rlt_dec r rs) as [A|A].
  - apply (dl_loc (fun _ => 0) _ _ _ (rs - r)); [lra| |].
    + intros t Ht. apply Rabs_def2 in Ht. unfold Q. destruct (Rlt_dec t rs); [reflexivity|lra].
    + unfold DQ. destruct (Rlt_dec r rs); [apply dl_const|lra].
  - apply (dl_loc (fun t => T n (to_unit rc rs t) * switch_result rc rs t) _ _ _ (r - rs)); [lra| |].
    + intros t Ht. apply Rabs_def2 in Ht. unfold Q. destruct (Rlt_dec t rs); [lra|]. destruct (Rlt_dec t rc); [reflexivity|].
      rewrite (switch_high rc rs H) by lra. ring.
    + apply (dl_val _ _ (D n (to_unit rc rs r) * (2 / (rc - rs)) * switch_result rc rs r + T n (to_unit rc rs r) * switch_deriv2r rc rs r)).
      * unfold DQ. destruct (Rlt_dec r rs); [lra|]. destruct (Rlt_dec r rc); [reflexivity|].
        rewrite (switch_high rc rs H), (dswitch_high rc rs H) by lra. ring.
      * apply (dl_mult (fun t => T n (to_unit rc rs t)) (switch_result rc rs)); [apply T_unit_dl|apply switch_dl, H].
Qed.

Lemma mq_ok : exists V : nat -> R -> R, chebyshev V /\
  forall size rc rs r old, rs < rc -> sized size old -> exists vals ders, mq_build size rc rs r old = Ok (vals, ders) /\
  length vals = size /\ length ders = size /\
  forall n, (n < size)%nat ->
    nth n vals 0 = if Rlt_dec r rs then 0 else if Rlt_dec r rc then V n (to_unit rc rs r) * switch_result rc rs r else 0.
Proof.
  exists T. split; [exact T_cos|]. intros size rc rs r old H S0. rewrite mq_build_ok by exact S0. do 2 eexists. split; [reflexivity|].
  rewrite !map_length, !seq_length. split; [reflexivity|]. split; [reflexivity|]. intros n N. rewrite nth_map_seq by exact N. reflexivity.
Qed.

(** The n-th value as a function of the distance. *)
Definition mq_value (size : nat) (rc rs : R) (old : tables) (n : nat) (r : R) : R := value_of n (mq_build size rc rs r old).
Definition mq_slope (size : nat) (rc rs : R) (old : tables) (n : nat) (r : R) : R := slope_of n (mq_build size rc rs r old).

Lemma mq_value_Q size rc rs old n r : sized size old -> (n < size)%nat -> mq_value size rc rs old n r = Q rc rs n r.
Proof. intros S0 N. unfold mq_value. rewrite mq_build_ok by exact S0. cbn [value_of fst]. exact (nth_map_seq (fun n => Q rc rs n r) size n 0 N). Qed.
Lemma mq_slope_DQ size rc rs old n r : sized size old -> (n < size)%nat -> mq_slope size rc rs old n r = DQ rc rs n r.
Proof. intros S0 N. unfold mq_slope. rewrite mq_build_ok by exact S0. cbn [slope_of snd]. exact (nth_map_seq (fun n => DQ rc rs n r) size n 0 N). Qed.

Lemma mq_dl size rc rs old n r : rs < rc -> r <> rs -> sized size old -> (n < size)%nat ->
  derivable_pt_lim (mq_value size rc rs old n) r (mq_slope size rc rs old n r).
Proof.
  intros H N S0 L. rewrite mq_slope_DQ by assumption. apply (dl_ext (Q rc rs n)); [intros t; symmetry; apply mq_value_Q; assumption|].
  apply Q_dl; assumption.
Qed.

(** *** The jump *)
Lemma T_minus_one n : T n (-1) = (-1) ^ n.
Proof.
  revert n. apply two_step; [rewrite T_0; reflexivity|rewrite T_1; cbn; ring|]. intros n A B. rewrite T_SS, A, B. cbn [pow]. ring.
Qed.
Lemma Q_at_rs rc rs n : rs < rc -> Q rc rs n rs = (-1) ^ n.
Proof.
  intros H. unfold Q. destruct (Rlt_dec rs rs); [lra|]. destruct (Rlt_dec rs rc); [|lra].
  replace (to_unit rc rs rs) with (-1) by (unfold to_unit; field; lra). rewrite T_minus_one, switch_at_rs by exact H. ring.
Qed.
Lemma Q_jump rc rs n : rs < rc -> ~ continuity_pt (Q rc rs n) rs.
Proof.
  intros H. apply (jump_not_continuous _ _ 0).
  - rewrite Q_at_rs by exact H. intros E. apply (pow_nonzero (-1) n); [lra|symmetry; exact E].
  - intros d Hd. exists (rs - d / 2). split; [|unfold Q; destruct (Rlt_dec (rs - d / 2) rs); [reflexivity|lra]].
    replace (rs - d / 2 - rs) with (- (d / 2)) by ring. rewrite Rabs_Ropp, Rabs_right; lra.
Qed.
Lemma vv_jump rc rs : rs < rc -> (forall r, r < rs -> vv_result rc rs r = 0) /\ vv_result rc rs rs = 1 /\ ~ continuity_pt (vv_result rc rs) rs.
Proof.
  intros H. assert (E : vv_result rc rs rs = 1) by (rewrite (proj1 (vv_mid rc rs rs (Rle_refl _))); apply switch_at_rs; exact H).
  split; [intros r Hr; apply vv_low, Hr|]. split; [exact E|]. apply (jump_not_continuous _ _ 0); [rewrite E; lra|].
  intros d Hd. exists (rs - d / 2). split; [|apply vv_low; lra].
  replace (rs - d / 2 - rs) with (- (d / 2)) by ring. rewrite Rabs_Ropp, Rabs_right; lra.
Qed.
Lemma mq_jump size rc rs old n : rs < rc -> sized size old -> (n < size)%nat ->
  (forall r, r < rs -> mq_value size rc rs old n r = 0) /\ mq_value size rc rs old n rs = (-1) ^ n /\ ~ continuity_pt (mq_value size rc rs old n) rs.
Proof.
  intros H S0 N. split; [|split].
  - intros r Hr. rewrite mq_value_Q by assumption. unfold Q. destruct (Rlt_dec r rs); [reflexivity|lra].
  - rewrite mq_value_Q by assumption. apply Q_at_rs, H.
  - intros C. apply (Q_jump rc rs n H). intros e He. destruct (C e He) as (d & Hd & K). exists d. split; [exact Hd|].
    intros x X. specialize (K x X). rewrite !mq_value_Q in K by assumption. exact K.
Qed.
(** Above the inner radius it agrees with the documented function. *)
Lemma vv_documented rc rs r : rs < rc -> (rs <= r -> vv_result rc rs r = switch_result rc rs r) /\ (r < rs -> switch_result rc rs r = 1 /\ vv_result rc rs r = 0).
Proof.
  intros H. split; [intros A; apply vv_mid, A|]. intros A. split; [apply switch_low, A|apply vv_low, A].
Qed.
Lemma vv_dl rc rs r : rs < rc -> r <> rs -> derivable_pt_lim (vv_result rc rs) r (vv_deriv2r rc rs r).
Proof.
  intros H N. destruct (Rlt_dec r rs) as [A|A].
  - rewrite (proj2 (vv_low rc rs r A)). apply (dl_loc (fun _ => 0) _ _ _ (rs - r)); [lra| |apply dl_const].
    intros t Ht. apply Rabs_def2 in Ht. symmetry. apply vv_low. lra.
  - rewrite (proj2 (vv_mid rc rs r ltac:(lra))). apply (dl_loc (switch_result rc rs) _ _ _ (r - rs)); [lra| |apply switch_dl, H].
    intros t Ht. apply Rabs_def2 in Ht. symmetry. apply vv_mid. lra.
Qed.

Lemma zeros_sized size : sized size (repeat 0 size, repeat 0 size, repeat 0 size).
Proof. repeat split; apply repeat_length. Qed.
Lemma ex_T3 : rb_build 4 4 0 3 (repeat 0 4, repeat 0 4, repeat 0 4) =
  Ok ([1; 1 / 2; - (1 / 2); -1], [0; 1; 2; 0], [0; 1 / 2; 1; 0]).
Proof.
  unfold rb_build. destruct (Rle_dec 0 3); [|lra]. destruct (Rle_dec 3 4); [|lra]. rewrite cheb_loop_ok by apply zeros_sized.
  cbn [seq map]. rewrite !D_SS, !T_SS, T_0, T_1, D_0, D_1.
  match goal with |- Ok (?a, ?b, ?c) = Ok (?a', ?b', ?c') => assert (A : a = a'); [|assert (B : b = b'); [|assert (C : c = c'); [|rewrite A, B, C; reflexivity]]] end;
  repeat (apply f_equal2; [try field|]); try reflexivity.
Qed.

(** *** Gradients with respect to the coordinates *)
Lemma vnorm_sq d : sqrt (vx d ^ 2 + vy d ^ 2 + vz d ^ 2) = vnorm d.
Proof. reflexivity. Qed.
Lemma vnorm_pos d : d <> (0, 0, 0) -> 0 < vnorm d.
Proof.
  intros N. assert (P : 0 <= vnorm d) by apply sqrt_pos. destruct P as [P|P]; [exact P|]. exfalso. apply N, vnorm_0. symmetry. exact P.
Qed.
Lemma with_coord_self k d : with_coord k d (coord k d) = d.
Proof. destruct d as [[? ?] ?]. destruct k as [|[|k]]; reflexivity. Qed.
Lemma vnorm_dl k d : d <> (0, 0, 0) -> (k < 3)%nat -> derivable_pt_lim (fun t => vnorm (with_coord k d t)) (coord k d) (coord k d / vnorm d).
Proof.
  intros N K. assert (P := vnorm_pos d N). unfold vnorm in *. assert (P2 : 0 < vx d ^ 2 + vy d ^ 2 + vz d ^ 2).
  { apply sqrt_lt_0_alt. rewrite sqrt_0. exact P. }
  assert (X : forall f : R -> R, f (coord k d) = vx d ^ 2 + vy d ^ 2 + vz d ^ 2 -> derivable_pt_lim f (coord k d) (2 * coord k d) ->
    derivable_pt_lim (fun t => sqrt (f t)) (coord k d) (coord k d / sqrt (vx d ^ 2 + vy d ^ 2 + vz d ^ 2))).
  { intros f E H. eapply dl_val; cycle 1; [apply dl_sqrt; [exact H|rewrite E; exact P2]|]. rewrite E. field. lra. }
  destruct d as [[x y] z]. unfold vx, vy, vz in *. cbn [fst snd] in *.
  destruct k as [|[|[|k]]]; [| | |lia]; apply X; cbn; try reflexivity.
  - eapply dl_val; cycle 1; [apply dl_plus; [apply dl_plus; [apply (dl_pow (fun t => t) x 1 2), dl_id|apply dl_const]|apply dl_const]|cbn; ring].
  - eapply dl_val; cycle 1; [apply dl_plus; [apply dl_plus; [apply dl_const|apply (dl_pow (fun t => t) y 1 2), dl_id]|apply dl_const]|cbn; ring].
  - eapply dl_val; cycle 1; [apply dl_plus; [apply dl_plus; apply dl_const|apply (dl_pow (fun t => t) z 1 2), dl_id]|cbn; ring].
Qed.

Definition RF (rc rs : R) (n : nat) (d : vec) : R := Q rc rs n (vnorm d).
Definition RG (rc rs : R) (n : nat) (d : vec) : list R :=
  if Req_EM_T (vnorm d) 0 then [0; 0; 0] else
  [DQ rc rs n (vnorm d) * vx d / vnorm d; DQ rc rs n (vnorm d) * vy d / vnorm d; DQ rc rs n (vnorm d) * vz d / vnorm d].

Lemma radial_forward_ok size rc rs d old : sized size old ->
  radial_forward size rc rs d old = Ok (map (fun n => RF rc rs n d) (seq 0 size), map (fun n => RG rc rs n d) (seq 0 size)).
Proof.
  intros S0. unfold radial_forward. rewrite vnorm_sq. rewrite mq_build_ok by exact S0. cbn [bind fst snd].
  rewrite (mapM_ok_in _ (fun n => RG rc rs n d)); [reflexivity|]. intros ii I. apply in_seq in I. rewrite get_map_seq by lia. reflexivity.
Qed.

Lemma RG_entry rc rs n d k : (k < 3)%nat -> entry k (RG rc rs n d) = if Req_EM_T (vnorm d) 0 then 0 else DQ rc rs n (vnorm d) * coord k d / vnorm d.
Proof. intros K. unfold RG, entry. destruct (Req_EM_T (vnorm d) 0); destruct k as [|[|[|k]]]; try lia; reflexivity. Qed.

Lemma RF_partial rc rs n d k : rs < rc -> vnorm d <> rs -> (d = (0, 0, 0) -> 0 < rs) -> (k < 3)%nat ->
  partial k (RF rc rs n) d (entry k (RG rc rs n d)).
Proof.
  intros H N Z K. rewrite RG_entry by exact K. unfold partial, RF. destruct (Req_EM_T (vnorm d) 0) as [E|E].
  - apply vnorm_0 in E. specialize (Z E). subst d.
    apply (dl_loc (fun _ => 0) _ _ _ rs); [exact Z| |apply dl_const]. intros t Ht. unfold Q.
    assert (L : vnorm (with_coord k (0, 0, 0) t) = Rabs t).
    { unfold vnorm, vx, vy, vz. destruct k as [|[|[|k]]]; [| | |lia]; cbn -[pow]; rewrite <- sqrt_Rsqr_abs; f_equal; unfold Rsqr; ring. }
    rewrite L. replace (coord k (0, 0, 0)) with 0 in Ht by (destruct k as [|[|k]]; reflexivity). rewrite Rminus_0_r in Ht.
    destruct (Rlt_dec (Rabs t) rs); [reflexivity|lra].
  - assert (Nd : d <> (0, 0, 0)) by (intros ->; apply E; apply vnorm_0; reflexivity).
    eapply dl_val; cycle 1.
    { apply (dl_comp (fun t => vnorm (with_coord k d t)) (Q rc rs n)); [apply vnorm_dl; [exact Nd|exact K]|].
      rewrite with_coord_self. apply Q_dl; [exact H|exact N]. }
    unfold Rdiv. ring.
Qed.

Lemma backward_ok size (grad : list R) (f : nat -> list R) : length grad = size -> (forall n, length (f n) = 3%nat) ->
  radial_backward grad (map f (seq 0 size)) =
  Ok (map (fun k => weighted grad (map (fun n => entry k (f n)) (seq 0 size))) (seq 0 3)).
Proof.
  intros L F. unfold radial_backward. rewrite map_length, seq_length.
  assert (Fn : forall n, f n = [entry 0 (f n); entry 1 (f n); entry 2 (f n)]).
  { intros n. specialize (F n). destruct (f n) as [|a [|b [|c [|e r]]]]; try discriminate. reflexivity. }
  assert (G : forall g2 m g1 x y z, length g1 = m -> grad = g1 ++ g2 ->
    foldM (fun acc jj => bind (get grad jj) (fun g => bind (get (map f (seq 0 size)) jj) (fun row =>
      bind (get row 0) (fun a => bind (get row 1) (fun b => bind (get row 2) (fun c =>
      match acc with [x; y; z] => Ok [x + g * a; y + g * b; z + g * c] | _ => Err IndexError end)))))) (seq m (length g2)) [x; y; z] =
    Ok [x + weighted g2 (map (fun n => entry 0 (f n)) (seq m (length g2)));
        y + weighted g2 (map (fun n => entry 1 (f n)) (seq m (length g2)));
        z + weighted g2 (map (fun n => entry 2 (f n)) (seq m (length g2)))]).
  { induction g2 as [|g g2 IH]; intros m g1 x y z L1 E; [cbn; rewrite !Rplus_0_r; reflexivity|].
    cbn [length seq foldM]. assert (Hm : (m < size)%nat) by (rewrite <- L, E, app_length; cbn; lia).
    rewrite (get_some grad m g) by (rewrite E, nth_error_app2 by lia; replace (m - length g1)%nat with 0%nat by lia; reflexivity).
    cbn [bind]. rewrite get_map_seq by exact Hm. cbn [bind]. rewrite (Fn m). cbn [get nth_error bind].
    rewrite (IH (S m) (g1 ++ [g])); [|rewrite app_length; cbn; lia|rewrite <- app_assoc; exact E].
    cbn [map weighted]. f_equal. repeat (apply f_equal2; [ring|]). reflexivity. }
  specialize (G grad 0%nat [] 0 0 0 eq_refl eq_refl). rewrite L in G. rewrite G. cbn [seq map]. rewrite !Rplus_0_l. reflexivity.
Qed.

Lemma weighted_partial (F : nat -> vec -> R) (G : nat -> R) k d : (forall n, partial k (F n) d (G n)) ->
  forall (g : list R) (l : list nat), partial k (fun p => weighted g (map (fun n => F n p) l)) d (weighted g (map G l)).
Proof.
  intros H g. unfold partial in *. induction g as [|a g IH]; intros l; [exact (dl_const 0 (coord k d))|].
  destruct l as [|n l]; [exact (dl_const 0 (coord k d))|]. cbn [map weighted]. apply dl_plus; [apply dl_scal, H|apply IH].
Qed.

Lemma radial_gradient size rc rs d old grad : rs < rc -> vnorm d <> rs -> (d = (0, 0, 0) -> 0 < rs) -> sized size old -> length grad = size ->
  exists vals ders out, radial_forward size rc rs d old = Ok (vals, ders) /\ radial_backward grad ders = Ok out /\ length out = 3%nat /\
  forall k, (k < 3)%nat ->
    (forall n, (n < size)%nat -> partial k (fun p => value_of n (radial_forward size rc rs p old)) d (entry2 n k ders)) /\
    partial k (fun p => weighted grad (values_of (radial_forward size rc rs p old))) d (entry k out).
Proof.
  intros H N Z S0 L. rewrite radial_forward_ok by exact S0. do 2 eexists.
  exists (map (fun k => weighted grad (map (fun n => entry k (RG rc rs n d)) (seq 0 size))) (seq 0 3)). split; [reflexivity|]. split.
  - apply backward_ok; [exact L|]. intros n. unfold RG. destruct (Req_EM_T _ _); reflexivity.
  - split; [reflexivity|]. intros k K. split.
    + intros n Hn. unfold partial, entry2. rewrite nth_map_seq by exact Hn.
      apply (dl_ext (fun t => RF rc rs n (with_coord k d t))).
      { intros t. rewrite radial_forward_ok by exact S0. cbn [value_of fst]. symmetry. exact (nth_map_seq (fun n => RF rc rs n (with_coord k d t)) size n 0 Hn). }
      apply (RF_partial rc rs n d k); assumption.
    + unfold entry at 1. rewrite nth_map_seq by exact K.
      unfold partial. apply (dl_ext (fun t => weighted grad (map (fun n => RF rc rs n (with_coord k d t)) (seq 0 size)))).
      { intros t. rewrite radial_forward_ok by exact S0. reflexivity. }
      apply (weighted_partial (RF rc rs) (fun n => entry k (RG rc rs n d)) k d). intros n. apply RF_partial; assumption.
Qed.


Lemma norm_5 : vnorm (3, 4, 0) = 5.
Proof. unfold vnorm, vx, vy, vz. cbn [fst snd]. replace (3 ^ 2 + 4 ^ 2 + 0 ^ 2) with (5 ^ 2) by ring. apply sqrt_pow2. lra. Qed.
Lemma ex_radial : vnorm (3, 4, 0) = 5 /\ radial_forward 1 6 4 (3, 4, 0) ([0], [0], [0]) = Ok ([1 / 2], [[- (9 / 16); - (3 / 4); 0]]).
Proof.
  split; [exact norm_5|]. rewrite radial_forward_ok by (repeat split). cbn [seq map]. unfold RF, RG. rewrite norm_5.
  destruct (Req_EM_T 5 0); [lra|]. unfold Q, DQ, vx, vy, vz. cbn [fst snd]. destruct (Rlt_dec 5 4); [lra|]. destruct (Rlt_dec 5 6); [|lra].
  rewrite T_0, D_0. rewrite (proj1 switch_half), (proj2 switch_half). do 2 f_equal; [f_equal; ring|].
  f_equal. repeat (apply f_equal2; [field|]). reflexivity.
Qed.
Lemma ex_mq_half size old : sized size old -> (1 < size)%nat -> value_of 0 (mq_build size 6 4 5 old) = 1 / 2 /\ value_of 1 (mq_build size 6 4 5 old) = 0.
Proof.
  intros S0 N. change (mq_value size 6 4 old 0 5 = 1 / 2 /\ mq_value size 6 4 old 1 5 = 0). rewrite !mq_value_Q by (assumption || lia).
  unfold Q. destruct (Rlt_dec 5 4); [lra|]. destruct (Rlt_dec 5 6); [|lra]. rewrite T_0, T_1, (proj1 switch_half). unfold to_unit. split; field.
Qed.

Lemma poly_ok : exists V DV : nat -> R -> R, chebyshev V /\ (forall n u, derivable_pt_lim (V n) u (DV n u)) /\
  forall size rc rs r old, rs < rc -> sized size old ->
  (rs <= r < rc -> exists DR, (forall n, derivable_pt_lim (fun t => V n (to_unit rc rs t)) r (DR n)) /\
    poly_build size rc rs r old = Ok (map (fun n => V n (to_unit rc rs r)) (seq 0 size), map (fun n => DV n (to_unit rc rs r)) (seq 0 size), map DR (seq 0 size))) /\
  (r < rs \/ rc <= r -> poly_build size rc rs r old = Ok (repeat 0 size, repeat 0 size, repeat 0 size)).
Proof.
  destruct rb_ok as (V & DV & C & DD & H). exists V, DV. split; [exact C|]. split; [exact DD|]. intros size rc rs r old L S0. split.
  - intros I. destruct (H size rc rs r old L ltac:(lra) S0) as (DR & D1 & E). exists DR. split; [exact D1|]. rewrite <- E. unfold poly_build, rb_build. destruct (Rle_dec rs r); [|lra]. destruct (Rlt_dec r rc); [|lra]. destruct (Rle_dec r rc); [|lra]. reflexivity.
  - intros I. unfold poly_build. destruct (Rle_dec rs r); [|reflexivity]. destruct (Rlt_dec r rc); [lra|reflexivity].
Qed.
