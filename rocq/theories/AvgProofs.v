(** Displacements, angles and pair distances. *)
From Coq Require Import Permutation.
From Verif Require Import Arr Vec SeModel NeighModel NeighReal NbGeomProofs DataModel DataProofs NbMlffProofs MtpValueProofs AvgModel AvgSpec AvgBondProofs.
Local Open Scope R_scope.

Lemma vnorm_norm2 v : vnorm v = sqrt (norm2 v).
Proof. unfold vnorm, norm2, dot. f_equal. ring. Qed.
Lemma norm2_nonneg v : 0 <= norm2 v.
Proof. unfold norm2, dot. nra. Qed.
Lemma norm2_zero v : norm2 v = 0 <-> v = (0, 0, 0).
Proof.
  split; [|intros ->; unfold norm2, dot; cbn; ring]. destruct v as [[a b] c]. unfold norm2, dot, vx, vy, vz. cbn. intros H.
  assert (a = 0) by nra. assert (b = 0) by nra. assert (c = 0) by nra. subst. reflexivity.
Qed.
Lemma vnorm_sq v : vnorm v ^ 2 = norm2 v.
Proof. rewrite vnorm_norm2. apply pow2_sqrt, norm2_nonneg. Qed.
Lemma vnorm_pos v : v <> (0, 0, 0) -> 0 < vnorm v.
Proof. intros H. rewrite vnorm_norm2. apply sqrt_lt_R0. destruct (norm2_nonneg v) as [L|E]; [exact L|]. exfalso. apply H, norm2_zero. symmetry. exact E. Qed.
Lemma vnorm_nonneg v : 0 <= vnorm v.
Proof. rewrite vnorm_norm2. apply sqrt_pos. Qed.

Lemma mean_of_average l : mean_of (sum_list l) (length l) = average l.
Proof. destruct l; reflexivity. Qed.

(** *** Mean squared displacement *)
Lemma msd_s_ok a b : length a = length b -> calc_msd_s a b = Ok (average (squared_moves a b)).
Proof.
  intros L. unfold calc_msd_s, coords_minus. rewrite L, Nat.eqb_refl. cbn [bind].
  assert (E : map norm2 (map (fun p : vec * vec => vsub (fst p) (snd p)) (combine b a)) = squared_moves a b).
  { unfold squared_moves. clear. revert b. induction a as [|x a IH]; intros [|y b]; try reflexivity. cbn. rewrite IH. f_equal. unfold vdist. symmetry. apply (vnorm_sq (vsub y x)). }
  rewrite E, <- mean_of_average. rewrite <- E at 3. rewrite !map_length. reflexivity.
Qed.
Lemma frame_pairs_ok frames : exists l, frame_pairs frames = Ok l /\ length l = (length frames - 1)%nat /\
  forall k a b, nth_error frames k = Some a -> nth_error frames (S k) = Some b -> nth_error l k = Some (a, b).
Proof.
  unfold frame_pairs.
  destruct (mapM_total (fun k => bind (get frames (k - 1)) (fun a => bind (get frames k) (fun b => Ok (a, b)))) (seq 1 (length frames - 1))) as (l & El).
  { intros k I0. apply in_seq in I0. assert (H1 : (k - 1 < length frames)%nat) by lia. assert (H2 : (k < length frames)%nat) by lia.
    apply nth_error_Some in H1, H2. destruct (nth_error frames (k - 1)) as [a|] eqn:Ea; [|contradiction]. destruct (nth_error frames k) as [b|] eqn:Eb; [|contradiction].
    exists (a, b). rewrite (get_some _ _ _ Ea). cbn [bind]. rewrite (get_some _ _ _ Eb). reflexivity. }
  exists l. split; [exact El|]. pose proof (mapM_forall2 _ _ _ El) as F. assert (L := TextProofs.Forall2_length F). rewrite seq_length in L. split; [symmetry; exact L|].
  intros k a b Ea Eb. assert (H2 : (S k < length frames)%nat) by (apply nth_error_Some; rewrite Eb; discriminate).
  assert (Sk : nth_error (seq 1 (length frames - 1)) k = Some (S k)). { clear -H2. assert (G : forall n s k, (k < n)%nat -> nth_error (seq s n) k = Some (s + k)%nat). { induction n as [|n IH]; intros s [|j] Hk; [lia|lia|cbn; f_equal; lia|]. cbn. rewrite IH by lia. f_equal. lia. } rewrite G by lia. reflexivity. }
  destruct (TextProofs.Forall2_nth F k _ Sk) as (y & Ey & Hy). cbn [Nat.sub] in Hy. rewrite Nat.sub_0_r in Hy.
  rewrite (get_some _ _ _ Ea) in Hy. cbn [bind] in Hy. rewrite (get_some _ _ _ Eb) in Hy. cbn [bind] in Hy. injection Hy as <-. exact Ey.
Qed.
Lemma frame_pairs_in frames l p : frame_pairs frames = Ok l -> In p l -> In (fst p) frames /\ In (snd p) frames.
Proof.
  intros E I0. unfold frame_pairs in E. apply mapM_forall2 in E.
  assert (X : exists k, bind (get frames (k - 1)) (fun a => bind (get frames k) (fun b => Ok (a, b))) = Ok p).
  { induction E as [|k y ks ys Hy F IH]; [destruct I0|]. destruct I0 as [<-|I0]; [exists k; exact Hy|apply IH; exact I0]. }
  destruct X as (k & Hk).
  destruct (get frames (k - 1)) as [a|] eqn:Ea; [|discriminate]. cbn [bind] in Hk. destruct (get frames k) as [b|] eqn:Eb; [|discriminate]. cbn [bind] in Hk. injection Hk as <-.
  unfold get in Ea, Eb. destruct (nth_error frames (k - 1)) eqn:E1; [|discriminate]. destruct (nth_error frames k) eqn:E2; [|discriminate].
  injection Ea as <-. injection Eb as <-. split; eapply nth_error_In; eassumption.
Qed.
Lemma starmap_frames {B} cpus frames (f : list vec * list vec -> result B) (g : list vec -> list vec -> B) n :
  (3 <= cpus)%Z -> Forall (fun s => length s = n) frames -> (forall a b, length a = length b -> f (a, b) = Ok (g a b)) ->
  exists l, bind (frame_pairs frames) (starmap cpus f) = Ok l /\ length l = (length frames - 1)%nat /\
  forall k a b, nth_error frames k = Some a -> nth_error frames (S k) = Some b -> nth_error l k = Some (g a b).
Proof.
  intros Hc Hn Hf. destruct (frame_pairs_ok frames) as (ps & Ep & Lp & Np). rewrite Ep. cbn [bind]. unfold starmap. rewrite (proj2 (Z.ltb_ge _ _)) by lia.
  assert (Hin : forall p, In p ps -> f p = Ok (g (fst p) (snd p))).
  { intros p I0. destruct (frame_pairs_in _ _ _ Ep I0) as [I1 I2]. rewrite Forall_forall in Hn. destruct p as [a b]. cbn [fst snd] in *. apply Hf. rewrite (Hn _ I1), (Hn _ I2). reflexivity. }
  destruct (mapM_total f ps) as (l & El); [intros p I0; eexists; exact (Hin p I0)|]. exists l. split; [exact El|].
  pose proof (mapM_forall2 _ _ _ El) as F. split; [rewrite <- (TextProofs.Forall2_length F); exact Lp|].
  intros k a b Ea Eb. specialize (Np k a b Ea Eb). destruct (TextProofs.Forall2_nth F k _ Np) as (y & Ey & Hy). rewrite Hin in Hy by (eapply nth_error_In; exact Np). injection Hy as <-. exact Ey.
Qed.
Lemma msd_ok cpus frames n : (3 <= cpus)%Z -> Forall (fun s => length s = n) frames ->
  exists l, calc_msd cpus frames = Ok l /\ length l = (length frames - 1)%nat /\
  forall k a b, nth_error frames k = Some a -> nth_error frames (S k) = Some b -> nth_error l k = Some (average (squared_moves a b)).
Proof. intros Hc Hn. apply (starmap_frames cpus frames _ (fun a b => average (squared_moves a b)) n Hc Hn). intros a b L. exact (msd_s_ok a b L). Qed.
Lemma few_cpus cpus frames q : (cpus <= 2)%Z -> calc_msd cpus frames = Err ValueError /\ calc_msd_sub_centroid cpus frames = Err ValueError /\ calc_di cpus frames q = Err ValueError.
Proof.
  intros H. destruct (frame_pairs_ok frames) as (l & E & _).
  assert (X : calc_msd cpus frames = Err ValueError) by (unfold calc_msd, starmap; rewrite E; cbn [bind]; rewrite (proj2 (Z.ltb_lt _ _)) by lia; reflexivity).
  split; [exact X|]. split; [unfold calc_msd_sub_centroid, starmap; rewrite E; cbn [bind]; rewrite (proj2 (Z.ltb_lt _ _)) by lia; reflexivity|]. unfold calc_di. rewrite X. reflexivity.
Qed.

Lemma sum_nonneg l : Forall (fun x => 0 <= x) l -> 0 <= fold_right Rplus 0 l.
Proof. induction 1; cbn; lra. Qed.
Lemma sum_zero l : Forall (fun x => 0 <= x) l -> (fold_right Rplus 0 l = 0 <-> Forall (fun x => x = 0) l).
Proof.
  induction 1 as [|x l Hx Hl IH]; [split; [constructor|reflexivity]|]. cbn. pose proof (sum_nonneg l Hl). split.
  - intros E. constructor; [lra|apply IH; lra].
  - intros F. inversion F; subst. rewrite (proj2 IH) by assumption. lra.
Qed.
Lemma moves_nonneg a b : Forall (fun x => 0 <= x) (squared_moves a b).
Proof. apply Forall_map, Forall_forall. intros p _. apply pow2_ge_0. Qed.
Lemma msd_sign a b : length a = length b -> a <> [] -> exists m, average (squared_moves a b) = Some m /\ 0 <= m /\ (m = 0 <-> a = b).
Proof.
  intros L Hne. destruct a as [|x a]; [contradiction|]. destruct b as [|y b]; [discriminate L|].
  remember (squared_moves (x :: a) (y :: b)) as l eqn:El. assert (Hl : length l = S (length a)). { subst l. unfold squared_moves. rewrite map_length, combine_length, <- L, Nat.min_id. reflexivity. }
  assert (N : 0 < INR (length l)) by (rewrite Hl; apply lt_0_INR; lia).
  exists (fold_right Rplus 0 l / INR (length l)). split; [destruct l; [discriminate Hl|reflexivity]|].
  assert (P : Forall (fun x => 0 <= x) l) by (subst l; apply moves_nonneg).
  assert (Z0 : fold_right Rplus 0 l / INR (length l) = 0 <-> fold_right Rplus 0 l = 0).
  { split; intros E; [|rewrite E; unfold Rdiv; ring]. assert (fold_right Rplus 0 l = fold_right Rplus 0 l / INR (length l) * INR (length l)) as -> by (field; lra). rewrite E. ring. }
  split; [apply Rmult_le_pos; [apply sum_nonneg; exact P|left; apply Rinv_0_lt_compat; exact N]|].
  rewrite Z0, (sum_zero l P). subst l. clear -L. revert L. generalize (x :: a) (y :: b). clear. intros a. induction a as [|x a IH]; intros [|y b] L; try discriminate L; [split; constructor|].
  injection L as L. specialize (IH b L). unfold squared_moves in *. cbn [combine map fst snd]. split.
  - intros F. inversion F as [|? ? Hx Hr]; subst. apply IH in Hr. f_equal; [|exact Hr]. change (vnorm (vsub y x) ^ 2 = 0) in Hx. rewrite vnorm_sq in Hx. apply norm2_zero in Hx.
    destruct x as [[x1 x2] x3], y as [[y1 y2] y3]. unfold vsub, vx, vy, vz in Hx. cbn in Hx. injection Hx as H1 H2 H3. f_equal; [f_equal|]; lra.
  - intros E. injection E as <- E. constructor; [|apply IH; exact E]. change (vnorm (vsub x x) ^ 2 = 0). rewrite vnorm_sq. apply norm2_zero. destruct x as [[? ?] ?]. unfold vsub, vx, vy, vz. cbn. f_equal; [f_equal|]; lra.
Qed.

(** *** With the centroid subtracted *)
Lemma vsum_shift s c : fold_right vadd (0, 0, 0) (map (fun p => vsub p c) s) = vsub (fold_right vadd (0, 0, 0) s) (vscale (INR (length s)) c).
Proof.
  destruct c as [[cx cy] cz]. induction s as [|[[a b] d] s IH].
  - cbn. unfold vsub, vscale, vx, vy, vz. cbn. f_equal; [f_equal|]; ring.
  - cbn [map fold_right]. rewrite IH. change (length ((a, b, d) :: s)) with (S (length s)). rewrite S_INR. unfold vadd, vsub, vscale, vx, vy, vz. cbn [fst snd]. f_equal; [f_equal|]; ring.
Qed.
Lemma centroid_ok s : s <> [] -> is_centroid s (get_centroid s).
Proof.
  intros H. assert (N : 0 < INR (length s)) by (apply lt_0_INR; destruct s; [contradiction|cbn; lia]).
  unfold is_centroid. rewrite vsum_shift. unfold get_centroid. destruct (fold_right vadd (0, 0, 0) s) as [[a b] c]. unfold vsub, vscale, vx, vy, vz. cbn [fst snd]. f_equal; [f_equal|]; field; lra.
Qed.
Lemma centroid_unique s c d : s <> [] -> is_centroid s c -> is_centroid s d -> c = d.
Proof.
  intros H Hc Hd. assert (N : 0 < INR (length s)) by (apply lt_0_INR; destruct s; [contradiction|cbn; lia]).
  unfold is_centroid in *. rewrite vsum_shift in *. destruct (fold_right vadd (0, 0, 0) s) as [[a b] e], c as [[c1 c2] c3], d as [[d1 d2] d3]. unfold vsub, vscale, vx, vy, vz in *. cbn [fst snd] in *.
  injection Hc as A1 A2 A3. injection Hd as B1 B2 B3. f_equal; [f_equal|]; (apply Rmult_eq_reg_l with (INR (length s)); [lra|lra]).
Qed.
Lemma centroid_shift s t : s <> [] -> get_centroid (map (fun p => vadd p t) s) = vadd (get_centroid s) t.
Proof.
  intros H. assert (Hm : map (fun p => vadd p t) s <> []) by (destruct s; [contradiction|discriminate]).
  apply (centroid_unique (map (fun p => vadd p t) s)); [exact Hm|apply centroid_ok; exact Hm|]. unfold is_centroid. rewrite map_map.
  rewrite (map_ext _ (fun p => vsub p (get_centroid s))). 2:{ intros p. destruct p as [[? ?] ?], t as [[? ?] ?], (get_centroid s) as [[? ?] ?]. unfold vadd, vsub, vx, vy, vz. cbn. f_equal; [f_equal|]; ring. }
  apply centroid_ok. exact H.
Qed.
Lemma msd_sub_as_msd a b : calc_msd_sub_centroid_s a b = calc_msd_s (map (fun p => vsub p (get_centroid a)) a) (map (fun p => vsub p (get_centroid b)) b).
Proof. reflexivity. Qed.
Lemma msd_sub_ok a b : length a = length b ->
  calc_msd_sub_centroid_s a b = Ok (average (squared_moves (map (fun p => vsub p (get_centroid a)) a) (map (fun p => vsub p (get_centroid b)) b))).
Proof. intros L. rewrite msd_sub_as_msd. apply msd_s_ok. rewrite !map_length. exact L. Qed.
Lemma msd_sub_frames cpus frames n : (3 <= cpus)%Z -> n <> 0%nat -> Forall (fun s => length s = n) frames ->
  exists l, calc_msd_sub_centroid cpus frames = Ok l /\ length l = (length frames - 1)%nat /\
  forall k a b ca cb, nth_error frames k = Some a -> nth_error frames (S k) = Some b -> is_centroid a ca -> is_centroid b cb ->
  nth_error l k = Some (average (squared_moves (map (fun p => vsub p ca) a) (map (fun p => vsub p cb) b))).
Proof.
  intros Hc Hz Hn. destruct (starmap_frames cpus frames (fun p => calc_msd_sub_centroid_s (fst p) (snd p)) (fun a b => average (squared_moves (map (fun p => vsub p (get_centroid a)) a) (map (fun p => vsub p (get_centroid b)) b))) n Hc Hn) as (l & E & L & K).
  { intros a b Lab. apply (msd_sub_ok a b Lab). }
  exists l. split; [exact E|]. split; [exact L|]. intros k a b ca cb Ea Eb Ha Hb. rewrite (K k a b Ea Eb). rewrite Forall_forall in Hn.
  assert (a <> []) by (intros ->; apply Hz; rewrite <- (Hn []); [reflexivity|eapply nth_error_In; exact Ea]).
  assert (b <> []) by (intros ->; apply Hz; rewrite <- (Hn []); [reflexivity|eapply nth_error_In; exact Eb]).
  rewrite (centroid_unique a ca (get_centroid a)), (centroid_unique b cb (get_centroid b)) by (try assumption; apply centroid_ok; assumption). reflexivity.
Qed.
Lemma msd_sub_translation a b t u : a <> [] -> b <> [] ->
  calc_msd_sub_centroid_s (map (fun p => vadd p t) a) (map (fun p => vadd p u) b) = calc_msd_sub_centroid_s a b.
Proof.
  intros Ha Hb. rewrite !msd_sub_as_msd, !centroid_shift by assumption. rewrite !map_map.
  assert (X : forall w c s, map (fun p => vsub (vadd p w) (vadd c w)) s = map (fun p => vsub p c) s).
  { intros w c s. apply map_ext. intros p. destruct p as [[? ?] ?], w as [[? ?] ?], c as [[? ?] ?]. unfold vadd, vsub, vx, vy, vz. cbn. f_equal; [f_equal|]; ring. }
  rewrite !X. reflexivity.
Qed.
(** The two quantities differ by the squared displacement of the centroid. *)
Lemma moves_shift a b c d : length a = length b ->
  fold_right Rplus 0 (squared_moves (map (fun p => vsub p c) a) (map (fun p => vsub p d) b)) =
  fold_right Rplus 0 (squared_moves a b) - 2 * dot (vsub (fold_right vadd (0, 0, 0) b) (fold_right vadd (0, 0, 0) a)) (vsub d c) + INR (length a) * norm2 (vsub d c).
Proof.
  revert b. induction a as [|x a IH]; intros [|y b] L; try discriminate L.
  - cbn. unfold dot, vsub, vx, vy, vz. cbn. ring.
  - injection L as L. specialize (IH b L). unfold squared_moves in *. cbn [map combine fold_right fst snd]. rewrite IH. change (length (x :: a)) with (S (length a)). rewrite S_INR.
    unfold vdist. rewrite !vnorm_sq. destruct x as [[? ?] ?], y as [[? ?] ?], c as [[? ?] ?], d as [[? ?] ?], (fold_right vadd (0, 0, 0) a) as [[? ?] ?], (fold_right vadd (0, 0, 0) b) as [[? ?] ?].
    unfold norm2, dot, vadd, vsub, vx, vy, vz. cbn [fst snd]. ring.
Qed.
Lemma msd_sub_relation a b ca cb m : length a = length b -> a <> [] -> is_centroid a ca -> is_centroid b cb -> calc_msd_s a b = Ok (Some m) ->
  calc_msd_sub_centroid_s a b = Ok (Some (m - vdist cb ca ^ 2)).
Proof.
  intros L Ha Hca Hcb E. assert (Hb : b <> []) by (destruct b; [destruct a; [contradiction|discriminate L]|discriminate]).
  rewrite msd_s_ok in E by exact L. rewrite msd_sub_ok by exact L. f_equal. injection E as E.
  rewrite <- (centroid_unique a ca (get_centroid a)), <- (centroid_unique b cb (get_centroid b)) by (try assumption; apply centroid_ok; assumption).
  assert (N : 0 < INR (length a)) by (apply lt_0_INR; destruct a; [contradiction|cbn; lia]).
  assert (L1 : length (squared_moves a b) = length a) by (unfold squared_moves; rewrite map_length, combine_length, <- L, Nat.min_id; reflexivity).
  assert (L2 : length (squared_moves (map (fun p => vsub p ca) a) (map (fun p => vsub p cb) b)) = length a) by (unfold squared_moves; rewrite map_length, combine_length, !map_length, <- L, Nat.min_id; reflexivity).
  rewrite <- mean_of_average in E |- *. unfold mean_of, sum_list in *. rewrite L1 in E. rewrite L2. destruct (Nat.eqb_spec (length a) 0) as [Z0|_]; [rewrite Z0 in N; cbn in N; lra|].
  injection E as <-. f_equal. rewrite moves_shift by exact L. unfold is_centroid in Hca, Hcb. rewrite vsum_shift in Hca, Hcb. unfold vdist. rewrite vnorm_sq.
  rewrite <- L in Hcb. destruct (fold_right vadd (0, 0, 0) a) as [[a1 a2] a3], (fold_right vadd (0, 0, 0) b) as [[b1 b2] b3], ca as [[c1 c2] c3], cb as [[d1 d2] d3].
  unfold norm2, dot, vadd, vsub, vscale, vx, vy, vz in *. cbn [fst snd] in *. injection Hca as A1 A2 A3. injection Hcb as B1 B2 B3.
  assert (a1 = INR (length a) * c1) as -> by lra. assert (a2 = INR (length a) * c2) as -> by lra. assert (a3 = INR (length a) * c3) as -> by lra.
  assert (b1 = INR (length a) * d1) as -> by lra. assert (b2 = INR (length a) * d2) as -> by lra. assert (b3 = INR (length a) * d3) as -> by lra.
  field. lra.
Qed.

(** *** Diffraction intensity *)
Lemma di_ok cpus frames q l k m : calc_msd cpus frames = Ok l -> nth_error l k = Some (Some m) -> 0 <= m ->
  exists l', calc_di cpus frames q = Ok l' /\ exists d, nth_error l' k = Some (Some d) /\ d = exp (- (q * q * m / 3)) /\ 0 < d <= 1.
Proof.
  intros E K Hm. unfold calc_di. rewrite E. cbn [bind]. eexists. split; [reflexivity|]. exists (exp (- q ^ 2 * m / 3)). rewrite nth_error_map, K. split; [reflexivity|].
  assert (X : - q ^ 2 * m / 3 = - (q * q * m / 3)) by field. rewrite X. split; [reflexivity|]. split; [apply exp_pos|].
  assert (0 <= q * q * m / 3). { apply Rmult_le_pos; [apply Rmult_le_pos; [nra|exact Hm]|lra]. }
  destruct (Rle_lt_or_eq_dec _ _ H) as [P|Z0]; [|rewrite <- Z0, Ropp_0, exp_0; lra]. left. rewrite <- exp_0. apply exp_increasing. lra.
Qed.

(** *** Angles *)
Lemma cos_range u v : u <> (0, 0, 0) -> v <> (0, 0, 0) -> -1 <= dot u v / (vnorm u * vnorm v) <= 1.
Proof.
  intros Hu Hv. assert (Pu := vnorm_pos u Hu). assert (Pv := vnorm_pos v Hv). assert (P : 0 < vnorm u * vnorm v) by (apply Rmult_lt_0_compat; assumption).
  assert (C := cauchy u v). rewrite <- (vnorm_sq u), <- (vnorm_sq v) in C. set (n := vnorm u * vnorm v) in *. assert (CC : dot u v * dot u v <= n * n) by (unfold n; nra).
  assert (D : - n <= dot u v <= n). { clear -CC P. clearbody n. split; nra. }
  assert (Q : dot u v / n * n = dot u v) by (field; lra). split; apply Rmult_le_reg_r with n; try exact P; rewrite Q; lra.
Qed.
Lemma angle_ok u v : u <> (0, 0, 0) -> v <> (0, 0, 0) -> is_angle u v (get_angle u v).
Proof.
  intros Hu Hv. assert (R := cos_range u v Hu Hv). assert (Pi := PI_RGT_0). unfold is_angle, get_angle. set (c := dot u v / (vnorm u * vnorm v)) in *.
  assert (B := acos_bound c). assert (Pu := vnorm_pos u Hu). assert (Pv := vnorm_pos v Hv). split.
  - assert (K : 0 < 180 / PI) by (apply Rmult_lt_0_compat; [lra|apply Rinv_0_lt_compat; exact Pi]). split; [apply Rmult_le_pos; lra|].
    assert (X : PI * (180 / PI) = 180) by (field; lra). rewrite <- X at 2. apply Rmult_le_compat_r; lra.
  - assert (X : acos c * (180 / PI) * (PI / 180) = acos c) by (field; lra). rewrite X, (cos_acos c R). unfold c. field. split; lra.
Qed.
Lemma angle_unique u v a b : u <> (0, 0, 0) -> v <> (0, 0, 0) -> is_angle u v a -> is_angle u v b -> a = b.
Proof.
  intros Hu Hv [Ra Ea] [Rb Eb]. assert (Pu := vnorm_pos u Hu). assert (Pv := vnorm_pos v Hv). assert (Pi := PI_RGT_0).
  assert (E : cos (a * (PI / 180)) = cos (b * (PI / 180))). { apply Rmult_eq_reg_l with (vnorm u * vnorm v); [congruence|]. assert (0 < vnorm u * vnorm v) by (apply Rmult_lt_0_compat; assumption). lra. }
  assert (G : forall x, 0 <= x <= 180 -> 0 <= x * (PI / 180) <= PI).
  { intros x Hx. assert (0 < PI / 180) by lra. split; [apply Rmult_le_pos; lra|]. assert (X : 180 * (PI / 180) = PI) by field. rewrite <- X at 2. apply Rmult_le_compat_r; lra. }
  assert (F : a * (PI / 180) = b * (PI / 180)). { rewrite <- (acos_cos _ (G a Ra)), <- (acos_cos _ (G b Rb)), E. reflexivity. }
  apply Rmult_eq_reg_r with (PI / 180); [exact F|lra].
Qed.
Lemma angle_is u v a : u <> (0, 0, 0) -> v <> (0, 0, 0) -> is_angle u v a -> get_angle u v = a.
Proof. intros Hu Hv H. eapply angle_unique; [exact Hu|exact Hv|apply angle_ok; assumption|exact H]. Qed.
Lemma angle_self u : u <> (0, 0, 0) -> get_angle u u = 0.
Proof.
  intros H. apply angle_is; [exact H|exact H|]. split; [lra|]. rewrite Rmult_0_l, cos_0. rewrite Rmult_1_r. change (dot u u) with (norm2 u). rewrite <- vnorm_sq. ring.
Qed.
Lemma angle_sym u v : get_angle u v = get_angle v u.
Proof. unfold get_angle. rewrite (Rmult_comm (vnorm u)). assert (dot u v = dot v u) as -> by (unfold dot; ring). reflexivity. Qed.

(** *** The loops over pairs *)
Lemma is_zero_spec v : is_zero v = true <-> v = (0, 0, 0).
Proof.
  destruct v as [[a b] c]. unfold is_zero, vx, vy, vz. cbn. destruct (Req_EM_T a 0); [|split; intros; congruence]. destruct (Req_EM_T b 0); [|split; intros; congruence]. destruct (Req_EM_T c 0); split; intros; congruence.
Qed.
Lemma nb_filter row l : real_entries row l -> l = filter (fun v => negb (is_zero v)) row.
Proof.
  induction 1 as [|row l H IH|v row l Hv H IH]; [reflexivity| |].
  - cbn [filter]. rewrite (proj2 (is_zero_spec (0, 0, 0)) eq_refl). exact IH.
  - cbn [filter]. destruct (is_zero v) eqn:E; [apply is_zero_spec in E; contradiction|]. cbn. f_equal. exact IH.
Qed.
Lemma nb_total row : exists l, real_entries row l.
Proof.
  induction row as [|v row (l & IH)]; [exists []; constructor|]. destruct (is_zero v) eqn:E.
  - apply is_zero_spec in E. subst. exists l. constructor. exact IH.
  - exists (v :: l). constructor; [|exact IH]. intros ->. rewrite (proj2 (is_zero_spec _) eq_refl) in E. discriminate.
Qed.
Lemma nb_nonzero row l : real_entries row l -> Forall (fun v => v <> (0, 0, 0)) l.
Proof. induction 1; [constructor|assumption|constructor; assumption]. Qed.
Lemma inner_zero (v : vec) r : is_zero v = true -> flat_map (fun w => if negb (is_zero v) && negb (is_zero w) then [(v, w)] else []) r = [].
Proof. intros E. rewrite E. induction r; [reflexivity|exact IHr]. Qed.
Lemma inner_real (v : vec) r l : is_zero v = false -> real_entries r l -> flat_map (fun w => if negb (is_zero v) && negb (is_zero w) then [(v, w)] else []) r = map (fun w => (v, w)) l.
Proof.
  intros E H. rewrite E. induction H as [|row l H IH|w row l Hw H IH]; [reflexivity| |].
  - cbn [flat_map]. rewrite (proj2 (is_zero_spec (0, 0, 0)) eq_refl). exact IH.
  - cbn [flat_map map]. destruct (is_zero w) eqn:Ew; [apply is_zero_spec in Ew; contradiction|]. cbn [negb andb app]. f_equal. exact IH.
Qed.
Lemma pairs_cross r2 r3 l2 l3 : real_entries r2 l2 -> real_entries r3 l3 -> pairs_of_centre false r2 r3 = list_prod l2 l3.
Proof.
  intros H2 H3. unfold pairs_of_centre. generalize 0%nat. induction H2 as [|row l H IH|v row l Hv H IH]; intros s; [reflexivity| |]; cbn [length seq combine flat_map fst snd].
  - rewrite inner_zero by (apply is_zero_spec; reflexivity). apply IH.
  - rewrite (inner_real v r3 l3) by first [exact H3|destruct (is_zero v) eqn:E; [apply is_zero_spec in E; contradiction|reflexivity]]. cbn [list_prod]. f_equal. apply IH.
Qed.
Fixpoint with_self {A} (l : list A) : list (A * A) := match l with [] => [] | x :: r => map (fun y => (x, y)) (x :: r) ++ with_self r end.
Lemma pairs_same r l : real_entries r l -> pairs_of_centre true r r = with_self l.
Proof.
  unfold pairs_of_centre.
  assert (G : forall r l p, real_entries r l -> flat_map (fun jv : nat * vec => flat_map (fun w => if negb (is_zero (snd jv)) && negb (is_zero w) then [(snd jv, w)] else []) (skipn (fst jv) (p ++ r)))
      (combine (seq (length p) (length r)) r) = with_self l).
  { clear. intros r l p H. revert p. induction H as [|row l H IH|v row l Hv H IH]; intros p; [reflexivity| |]; cbn [length seq combine flat_map fst snd].
    - rewrite inner_zero by (apply is_zero_spec; reflexivity). cbn [app]. specialize (IH (p ++ [(0, 0, 0)])). rewrite app_length, <- app_assoc in IH. cbn [length app] in IH. rewrite Nat.add_1_r in IH. exact IH.
    - rewrite skipn_app, skipn_all, Nat.sub_diag. cbn [skipn app].
      rewrite (inner_real v (v :: row) (v :: l)) by (first [constructor; assumption|destruct (is_zero v) eqn:E; [apply is_zero_spec in E; contradiction|reflexivity]]).
      cbn [with_self]. f_equal. specialize (IH (p ++ [v])). rewrite app_length, <- app_assoc in IH. cbn [length app] in IH. rewrite Nat.add_1_r in IH. exact IH. }
  intros H. exact (G r l [] H).
Qed.
Lemma all_cross rc2 rc3 n2 n3 : Forall2 real_entries rc2 n2 -> Forall2 real_entries rc3 n3 ->
  all_pairs_of false rc2 rc3 = flat_map (fun p => list_prod (fst p) (snd p)) (combine n2 n3).
Proof.
  intros F2. revert rc3 n3. induction F2 as [|r l rc ns H F IH]; intros rc3 n3 F3; [reflexivity|]. inversion F3 as [|r3 l3 rc3' n3' H3 F3']; subst; [reflexivity|].
  unfold all_pairs_of in *. cbn [combine flat_map fst snd]. rewrite (pairs_cross _ _ _ _ H H3). f_equal. apply IH. exact F3'.
Qed.
Lemma all_same rc ns : Forall2 real_entries rc ns -> all_pairs_of true rc rc = flat_map with_self ns.
Proof.
  induction 1 as [|r l rc ns H F IH]; [reflexivity|]. unfold all_pairs_of in *. cbn [combine flat_map fst snd]. rewrite (pairs_same _ _ H), IH. reflexivity.
Qed.
Lemma sum_app l l' : sum_list (l ++ l') = sum_list l + sum_list l'.
Proof. unfold sum_list. induction l as [|x l IH]; cbn [fold_right app]; [ring|rewrite IH; ring]. Qed.
Lemma with_self_perm {A} (l : list A) : Permutation (with_self l) (map (fun x => (x, x)) l ++ unordered l).
Proof.
  induction l as [|x l IH]; [constructor|]. cbn [with_self map unordered app]. apply perm_skip. rewrite IH. rewrite !app_assoc. apply Permutation_app_tail, Permutation_app_comm.
Qed.
Lemma with_self_all {A} (ns : list (list A)) : Permutation (flat_map with_self ns) (map (fun x => (x, x)) (concat ns) ++ flat_map unordered ns).
Proof.
  induction ns as [|l ns IH]; [constructor|]. cbn [flat_map concat]. rewrite IH, with_self_perm, map_app, !app_assoc. apply Permutation_app_tail. rewrite <- !app_assoc. apply Permutation_app_head, Permutation_app_comm.
Qed.
Lemma sum_perm l l' : Permutation l l' -> sum_list l = sum_list l'.
Proof. unfold sum_list. induction 1; cbn; lra. Qed.
Lemma sum_const {A} (f : A -> R) c l : (forall x, In x l -> f x = c) -> sum_list (map f l) = INR (length l) * c.
Proof.
  induction l as [|x l IH]; intros H; [cbn; ring|]. change (length (x :: l)) with (S (length l)). rewrite S_INR. cbn [map]. change (sum_list (f x :: map f l)) with (f x + sum_list (map f l)). rewrite IH by (intros y I0; apply H; right; exact I0). rewrite (H x (or_introl eq_refl)). ring.
Qed.

Definition ang (p : vec * vec) : R := get_angle (fst p) (snd p).
Lemma avg_angle_pairs same rc2 rc3 : get_avg_angle same rc2 rc3 = (average (map ang (all_pairs_of same rc2 rc3)), tetrahedral_order (map ang (all_pairs_of same rc2 rc3))).
Proof. unfold get_avg_angle. rewrite mean_of_average. reflexivity. Qed.
Lemma angle_cross rc2 rc3 n2 n3 : Forall2 real_entries rc2 n2 -> Forall2 real_entries rc3 n3 ->
  let angles := map ang (flat_map (fun p => list_prod (fst p) (snd p)) (combine n2 n3)) in
  get_avg_angle false rc2 rc3 = (average angles, tetrahedral_order angles).
Proof. intros F2 F3. cbn zeta. rewrite avg_angle_pairs, (all_cross _ _ _ _ F2 F3). reflexivity. Qed.
Lemma concat_nonzero rc ns : Forall2 real_entries rc ns -> forall x, In x (concat ns) -> x <> (0, 0, 0).
Proof.
  intros F x I0. apply in_concat in I0. destruct I0 as (l & Il & Ix). assert (Hl : exists r, real_entries r l).
  { clear Ix. induction F as [|r l0 rc ns H F IH]; [destruct Il|]. destruct Il as [<-|Il]; [exists r; exact H|apply IH; exact Il]. }
  destruct Hl as (r & Hr). apply nb_nonzero in Hr. rewrite Forall_forall in Hr. apply Hr. exact Ix.
Qed.
Lemma angle_same rc ns : Forall2 real_entries rc ns ->
  let angles := map ang (flat_map unordered ns) in
  let N := length (concat ns) in
  fst (get_avg_angle true rc rc) = match (N + length angles)%nat with 0%nat => None | n => Some (fold_right Rplus 0 angles / INR n) end /\
  snd (get_avg_angle true rc rc) = tetrahedral_order angles - 2 / 3 * INR N.
Proof.
  intros F. cbn zeta. rewrite avg_angle_pairs, (all_same _ _ F). cbn [fst snd]. assert (P := with_self_all ns). assert (Pa := Permutation_map ang P). rewrite map_app, map_map in Pa.
  assert (Z0 : forall x, In x (concat ns) -> ang (x, x) = 0) by (intros x I0; apply angle_self; exact (concat_nonzero rc ns F x I0)).
  split.
  - rewrite (average_perm _ _ Pa). rewrite <- mean_of_average. rewrite app_length, !map_length, sum_app. rewrite (sum_const (fun x => ang (x, x)) 0 _ Z0). unfold mean_of, sum_list.
    destruct (length (concat ns) + length (flat_map unordered ns))%nat as [|n] eqn:En; [reflexivity|]. cbn [Nat.eqb]. f_equal. f_equal. ring.
  - unfold tetrahedral_order. assert (Pb := Permutation_map (fun a => (1 / 3 + cos (a * (PI / 180))) ^ 2) Pa). apply sum_perm in Pb. unfold sum_list in Pb at 1. rewrite Pb. rewrite map_app, sum_app, map_map.
    rewrite (sum_const _ (16 / 9) (concat ns)). 2:{ intros x I0. rewrite (Z0 x I0), Rmult_0_l, cos_0. field. }
    unfold sum_list. field.
Qed.
Lemma unordered_length {A} (l : list A) : (2 * length (unordered l) = length l * (length l - 1))%nat.
Proof.
  induction l as [|x l IH]; [reflexivity|]. cbn [unordered length]. rewrite app_length, map_length. destruct l as [|y l]; [reflexivity|]. cbn [length] in *. nia.
Qed.
(** One centre with [n] neighbours of the same element: the reported mean is (n-1)/(n+1) of the mean. *)
Lemma angle_same_one row l m : real_entries row l -> average (map ang (unordered l)) = Some m ->
  fst (get_avg_angle true [row] [row]) = Some (m * ((INR (length l) - 1) / (INR (length l) + 1))).
Proof.
  intros H E. assert (F : Forall2 real_entries [row] [l]) by (constructor; [exact H|constructor]). destruct (angle_same _ _ F) as [X _]. rewrite X. clear X. cbn [flat_map concat]. rewrite !app_nil_r.
  assert (U := unordered_length l). rewrite map_length. destruct (unordered l) as [|p u] eqn:Eu; [discriminate|]. rewrite <- Eu in *. clear p u Eu.
  destruct l as [|x [|y l]]; [discriminate|discriminate|]. set (L := x :: y :: l) in *. assert (HL : (2 <= length L)%nat) by (cbn; lia). clearbody L.
  assert (Hu : (0 < length (unordered L))%nat) by nia. rewrite <- mean_of_average in E. unfold mean_of in E. rewrite map_length in E.
  destruct (Nat.eqb_spec (length (unordered L)) 0); [lia|]. injection E as <-. unfold sum_list. destruct (length L + length (unordered L))%nat as [|k] eqn:Ek; [lia|]. rewrite <- Ek. clear k Ek. f_equal.
  assert (HR : 2 * INR (length (unordered L)) = INR (length L) * (INR (length L) - 1)). { assert (HH := f_equal INR U). rewrite !mult_INR, minus_INR in HH by lia. cbn in HH. lra. }
  rewrite plus_INR. assert (PL : 2 <= INR (length L)) by (apply (le_INR 2); exact HL). assert (PU : 0 < INR (length (unordered L))) by (apply lt_0_INR; exact Hu).
  assert (HU : INR (length (unordered L)) = INR (length L) * (INR (length L) - 1) / 2) by lra. rewrite HU. field. repeat split; nra.
Qed.

(** *** The angle filter *)
Definition angle_row (p : vec * vec) : R * R * R := (ang p, Rmin (vnorm (fst p)) (vnorm (snd p)), Rmax (vnorm (fst p)) (vnorm (snd p))).
Lemma filter_in same rc2 rc3 standard epsilon row : In row (get_bond_lengths_according2angle same rc2 rc3 standard epsilon) <->
  exists p, In p (all_pairs_of same rc2 rc3) /\ row = angle_row p /\ Rabs (ang p - standard) < epsilon.
Proof.
  unfold get_bond_lengths_according2angle. rewrite in_map_iff. split.
  - intros (p & <- & I0). apply filter_In in I0. destruct I0 as [I0 D]. destruct (Rlt_dec _ _) in D; [|discriminate]. exists p. split; [exact I0|]. split; [reflexivity|assumption].
  - intros (p & I0 & -> & D). exists p. split; [reflexivity|]. apply filter_In. split; [exact I0|]. destruct (Rlt_dec _ _); [reflexivity|contradiction].
Qed.
Lemma filter_rows same rc2 rc3 standard epsilon a s l : In (a, s, l) (get_bond_lengths_according2angle same rc2 rc3 standard epsilon) -> Rabs (a - standard) < epsilon /\ 0 <= s <= l.
Proof.
  intros I0. apply filter_in in I0. destruct I0 as (p & _ & E & D). unfold angle_row in E. injection E as -> -> ->. split; [exact D|]. split; [apply Rmin_glb; apply vnorm_nonneg|].
  eapply Rle_trans; [apply Rmin_l|apply Rmax_l].
Qed.
Lemma filter_perm {A} (f : A -> bool) l l' : Permutation l l' -> Permutation (filter f l) (filter f l').
Proof.
  induction 1 as [|x l l' P IH|x y l|l l1 l2 P1 IH1 P2 IH2]; [constructor| | |etransitivity; eassumption].
  - cbn. destruct (f x); [apply perm_skip|]; exact IH.
  - cbn. destruct (f x), (f y); try reflexivity. apply perm_swap.
Qed.
(** With a standard angle that is not near zero the repeated neighbours do not enter. *)
Lemma filter_same rc ns standard epsilon : Forall2 real_entries rc ns -> epsilon <= standard ->
  Permutation (get_bond_lengths_according2angle true rc rc standard epsilon)
    (map angle_row (filter (fun p => if Rlt_dec (Rabs (ang p - standard)) epsilon then true else false) (flat_map unordered ns))).
Proof.
  intros F He. unfold get_bond_lengths_according2angle. rewrite (all_same _ _ F). apply (Permutation_map angle_row).
  eapply Permutation_trans; [apply filter_perm, with_self_all|]. rewrite filter_app.
  assert (X : filter (fun p => if Rlt_dec (Rabs (get_angle (fst p) (snd p) - standard)) epsilon then true else false) (map (fun x => (x, x)) (concat ns)) = []).
  { assert (Z0 := concat_nonzero rc ns F). induction (concat ns) as [|x l IH]; [reflexivity|]. cbn [map filter fst snd]. rewrite (angle_self x) by (apply Z0; left; reflexivity).
    destruct (Rlt_dec _ _) as [D|D]; [|apply IH; intros y I0; apply Z0; right; exact I0]. exfalso. assert (standard <= Rabs (0 - standard)) by (unfold Rabs; destruct (Rcase_abs _); lra). lra. }
  rewrite X. reflexivity.
Qed.

(** *** Pair distances along a trajectory *)
Lemma pair_bond_ok frames i j : (forall f, In f frames -> (- Z.of_nat (length f) <= i < Z.of_nat (length f))%Z /\ (- Z.of_nat (length f) <= j < Z.of_nat (length f))%Z) ->
  exists l, get_frames_pair_bond frames i j = Ok l /\ length l = length frames /\
  forall k f p q, nth_error frames k = Some f -> pyget f i = Ok p -> pyget f j = Ok q -> nth_error l k = Some (vdist q p).
Proof.
  intros H. unfold get_frames_pair_bond. destruct (mapM_total (fun coords => bind (pyget coords i) (fun p => bind (pyget coords j) (fun q => Ok (vnorm (vsub q p))))) frames) as (l & El).
  { intros f I0. destruct (H f I0) as [Hi Hj]. 
    assert (G : forall z, (- Z.of_nat (length f) <= z < Z.of_nat (length f))%Z -> exists x, pyget f z = Ok x).
    { intros z Hz. destruct (pyget f z) as [x|e] eqn:E; [exists x; reflexivity|]. apply pyget_err in E. tauto. }
    destruct (G i Hi) as (p & Ep), (G j Hj) as (q & Eq). exists (vnorm (vsub q p)). rewrite Ep. cbn [bind]. rewrite Eq. reflexivity. }
  exists l. split; [exact El|]. pose proof (mapM_forall2 _ _ _ El) as F. split; [symmetry; exact (TextProofs.Forall2_length F)|].
  intros k f p q Ef Ep Eq. destruct (TextProofs.Forall2_nth F k _ Ef) as (y & Ey & Hy). rewrite Ep in Hy. cbn [bind] in Hy. rewrite Eq in Hy. cbn [bind] in Hy. injection Hy as <-. exact Ey.
Qed.

(** *** In terms of the angles themselves *)
Lemma angles_are ps angles : (forall p, In p ps -> fst p <> (0, 0, 0) /\ snd p <> (0, 0, 0)) -> Forall2 (fun p a => is_angle (fst p) (snd p) a) ps angles -> map ang ps = angles.
Proof.
  intros H F. induction F as [|p a ps angles Ha F IH]; [reflexivity|]. cbn [map]. destruct (H p (or_introl eq_refl)) as [H1 H2]. f_equal; [apply angle_is; assumption|]. apply IH. intros q I0. apply H. right. exact I0.
Qed.
Lemma angles_exist ps : (forall p, In p ps -> fst p <> (0, 0, 0) /\ snd p <> (0, 0, 0)) -> Forall2 (fun p a => is_angle (fst p) (snd p) a) ps (map ang ps).
Proof.
  induction ps as [|p ps IH]; intros H; cbn [map]; constructor; [destruct (H p (or_introl eq_refl)); apply angle_ok; assumption|]. apply IH. intros q I0. apply H. right. exact I0.
Qed.
Lemma in_unordered {A} (l : list A) p : In p (unordered l) -> In (fst p) l /\ In (snd p) l.
Proof.
  induction l as [|x l IH]; [intros []|]. cbn [unordered]. intros I0. apply in_app_iff in I0. destruct I0 as [I0|I0].
  - apply in_map_iff in I0. destruct I0 as (y & <- & Iy). split; [left; reflexivity|right; exact Iy].
  - destruct (IH I0). split; right; assumption.
Qed.
Lemma same_nonzero rc ns : Forall2 real_entries rc ns -> forall p, In p (flat_map unordered ns) -> fst p <> (0, 0, 0) /\ snd p <> (0, 0, 0).
Proof.
  intros F p I0. apply in_flat_map in I0. destruct I0 as (l & Il & Ip). apply in_unordered in Ip. destruct Ip. split; apply (concat_nonzero rc ns F); apply in_concat; exists l; split; assumption.
Qed.
Lemma cross_nonzero rc2 rc3 n2 n3 : Forall2 real_entries rc2 n2 -> Forall2 real_entries rc3 n3 ->
  forall p, In p (flat_map (fun p => list_prod (fst p) (snd p)) (combine n2 n3)) -> fst p <> (0, 0, 0) /\ snd p <> (0, 0, 0).
Proof.
  intros F2 F3 p I0. apply in_flat_map in I0. destruct I0 as ([l2 l3] & Il & Ip). destruct p as [u v]. apply in_prod_iff in Ip. cbn [fst snd] in *.
  split; [apply (concat_nonzero rc2 n2 F2)|apply (concat_nonzero rc3 n3 F3)]; apply in_concat; [exists l2|exists l3]; (split; [|apply Ip]); [eapply in_combine_l; exact Il|eapply in_combine_r; exact Il].
Qed.
Lemma rows_have_entries rc : exists ns, Forall2 real_entries rc ns.
Proof. induction rc as [|r rc (ns & IH)]; [exists []; constructor|]. destruct (nb_total r) as (l & H). exists (l :: ns). constructor; assumption. Qed.

Lemma cross_claim rc2 rc3 n2 n3 : Forall2 real_entries rc2 n2 -> Forall2 real_entries rc3 n3 ->
  (exists angles, Forall2 (fun p a => is_angle (fst p) (snd p) a) (flat_map (fun p => list_prod (fst p) (snd p)) (combine n2 n3)) angles) /\
  forall angles, Forall2 (fun p a => is_angle (fst p) (snd p) a) (flat_map (fun p => list_prod (fst p) (snd p)) (combine n2 n3)) angles ->
  get_avg_angle false rc2 rc3 = (average angles, tetrahedral_order angles) /\ (forall m, average angles = Some m -> 0 <= m <= 180).
Proof.
  intros F2 F3. assert (Z0 := cross_nonzero _ _ _ _ F2 F3). split; [eexists; apply angles_exist; exact Z0|]. intros angles Fa. rewrite <- (angles_are _ _ Z0 Fa) at 1 2. split; [apply angle_cross; assumption|].
  intros m E. eapply average_bounds; [|exact E]. clear -Fa. induction Fa as [|p a ps l H F IH]; constructor; [apply H|exact IH].
Qed.
Lemma same_claim rc ns angles : Forall2 real_entries rc ns -> Forall2 (fun p a => is_angle (fst p) (snd p) a) (flat_map unordered ns) angles ->
  let N := length (concat ns) in
  fst (get_avg_angle true rc rc) = match (N + length angles)%nat with 0%nat => None | n => Some (fold_right Rplus 0 angles / INR n) end /\
  snd (get_avg_angle true rc rc) = tetrahedral_order angles - 2 / 3 * INR N.
Proof. intros F Fa. cbn zeta. rewrite <- (angles_are _ _ (same_nonzero _ _ F) Fa). exact (angle_same rc ns F). Qed.
Lemma same_one_claim row l angles m : real_entries row l -> Forall2 (fun p a => is_angle (fst p) (snd p) a) (unordered l) angles -> average angles = Some m ->
  fst (get_avg_angle true [row] [row]) = Some (m * ((INR (length l) - 1) / (INR (length l) + 1))).
Proof.
  intros H Fa E. apply angle_same_one; [exact H|]. rewrite <- E. f_equal. apply angles_are; [|exact Fa].
  assert (F : Forall2 real_entries [row] [l]) by (constructor; [exact H|constructor]). assert (Z0 := same_nonzero _ _ F). cbn [flat_map] in Z0. rewrite app_nil_r in Z0. exact Z0.
Qed.
(** The rows kept by the angle filter. *)
Lemma filter_cross_claim rc2 rc3 n2 n3 standard epsilon a s l : Forall2 real_entries rc2 n2 -> Forall2 real_entries rc3 n3 ->
  (In (a, s, l) (get_bond_lengths_according2angle false rc2 rc3 standard epsilon) <->
   exists u v, In (u, v) (flat_map (fun p => list_prod (fst p) (snd p)) (combine n2 n3)) /\ is_angle u v a /\ Rabs (a - standard) < epsilon /\
     ((s = vnorm u /\ l = vnorm v) \/ (s = vnorm v /\ l = vnorm u)) /\ s <= l).
Proof.
  intros F2 F3. assert (Z0 := cross_nonzero _ _ _ _ F2 F3). rewrite filter_in, (all_cross _ _ _ _ F2 F3). split.
  - intros ([u v] & I0 & E & D). unfold angle_row, ang in *. cbn [fst snd] in *. injection E as -> -> ->. destruct (Z0 (u, v) I0) as [Hu Hv]. cbn [fst snd] in *. exists u, v. split; [exact I0|]. split; [apply angle_ok; assumption|]. split; [exact D|].
    destruct (Rle_dec (vnorm u) (vnorm v)) as [L|L].
    + rewrite Rmin_left, Rmax_right by exact L. split; [left; split; reflexivity|exact L].
    + rewrite Rmin_right, Rmax_left by lra. split; [right; split; reflexivity|lra].
  - intros (u & v & I0 & Ha & D & HS & L). destruct (Z0 (u, v) I0) as [Hu Hv]. cbn [fst snd] in *. exists (u, v). split; [exact I0|]. unfold angle_row, ang. cbn [fst snd]. rewrite (angle_is u v a Hu Hv Ha). split; [|exact D].
    destruct HS as [[-> ->]|[-> ->]]; [rewrite Rmin_left, Rmax_right by exact L; reflexivity|rewrite Rmin_right, Rmax_left by exact L; reflexivity].
Qed.
Lemma filter_same_claim rc ns standard epsilon : Forall2 real_entries rc ns -> epsilon <= standard ->
  exists kept, Permutation (get_bond_lengths_according2angle true rc rc standard epsilon) kept /\
  forall a s l, In (a, s, l) kept <-> exists u v, In (u, v) (flat_map unordered ns) /\ is_angle u v a /\ Rabs (a - standard) < epsilon /\ s = Rmin (vnorm u) (vnorm v) /\ l = Rmax (vnorm u) (vnorm v).
Proof.
  intros F He. eexists. split; [exact (filter_same rc ns standard epsilon F He)|]. assert (Z0 := same_nonzero _ _ F). intros a s l. rewrite in_map_iff. split.
  - intros ([u v] & E & I0). apply filter_In in I0. destruct I0 as [I0 D]. destruct (Rlt_dec _ _) in D; [|discriminate]. unfold angle_row, ang in *. cbn [fst snd] in *. injection E as <- <- <-. destruct (Z0 (u, v) I0) as [Hu Hv]. cbn [fst snd] in *.
    exists u, v. split; [exact I0|]. split; [apply angle_ok; assumption|]. split; [assumption|]. split; reflexivity.
  - intros (u & v & I0 & Ha & D & -> & ->). destruct (Z0 (u, v) I0) as [Hu Hv]. cbn [fst snd] in *. exists (u, v). unfold angle_row, ang. cbn [fst snd]. rewrite (angle_is u v a Hu Hv Ha). split; [reflexivity|]. apply filter_In. split; [exact I0|].
    cbn [fst snd]. unfold ang. cbn [fst snd]. rewrite (angle_is u v a Hu Hv Ha). destruct (Rlt_dec _ _); [reflexivity|contradiction].
Qed.
