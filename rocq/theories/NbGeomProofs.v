From Verif Require Import Vec NbModel NbSpec StructProofs NbListProofs NbSearchProofs.
Open Scope Z_scope.

(** * The lowest vertex *)
Lemma running_min_spec l : forall m, In (running_min m l) (m :: l) /\ forall x, In x (m :: l) -> (running_min m l <= x)%R.
Proof.
  induction l as [|y r IH]; intros m; cbn [running_min].
  - split; [left; reflexivity|]. intros x [<-|[]]. apply Rle_refl.
  - destruct (IH (if Rltb y m then y else m)) as [H1 H2]. set (q := running_min _ r) in *. unfold Rltb in *.
    destruct (Rlt_dec y m) as [D|D]; split.
    + destruct H1 as [H1|H1]; [right; left; exact H1|right; right; exact H1].
    + intros x [<-|[<-|Hx]]; [apply Rle_trans with y; [apply H2; left; reflexivity|lra]|apply H2; left; reflexivity|apply H2; right; exact Hx].
    + destruct H1 as [H1|H1]; [left; exact H1|right; right; exact H1].
    + intros x [<-|[<-|Hx]]; [apply H2; left; reflexivity|apply Rle_trans with m; [apply H2; left; reflexivity|lra]|apply H2; right; exact Hx].
Qed.

Definition linear (f : vec -> R) : Prop := forall o A B C i j k,
  f (vadd o (comb A B C i j k)) = (f o + i * f A + j * f B + k * f C)%R.
Lemma linear_vx : linear vx. Proof. intros o A B C i j k. vec_ring. Qed.
Lemma linear_vy : linear vy. Proof. intros o A B C i j k. vec_ring. Qed.
Lemma linear_vz : linear vz. Proof. intros o A B C i j k. vec_ring. Qed.

Lemma min_along_eq f c : linear f ->
  min_along f c = (f (origin c) + Rmin 0 (f (bA c)) + Rmin 0 (f (bB c)) + Rmin 0 (f (bC c)))%R.
Proof.
  intros Hf. unfold min_along, vertexes. cbn [flat_map map app]. rewrite !Hf.
  match goal with |- running_min ?m ?l = _ => destruct (running_min_spec l m) as [H1 H2]; set (q := running_min m l) in * end.
  clearbody q. apply Rle_antisym.
  - unfold Rmin.
    destruct (Rle_dec 0 (f (bA c))), (Rle_dec 0 (f (bB c))), (Rle_dec 0 (f (bC c)));
    match goal with |- (_ <= ?o + ?a + ?b + ?d)%R =>
      let i := match a with 0%R => constr:(0%R) | _ => constr:(1%R) end in
      let j := match b with 0%R => constr:(0%R) | _ => constr:(1%R) end in
      let k := match d with 0%R => constr:(0%R) | _ => constr:(1%R) end in
      apply Rle_trans with (o + i * f (bA c) + j * f (bB c) + k * f (bC c))%R; [apply H2; cbn; tauto|lra] end.
  - cbn [In] in H1. pose proof (Rmin_l 0 (f (bA c))). pose proof (Rmin_r 0 (f (bA c))).
    pose proof (Rmin_l 0 (f (bB c))). pose proof (Rmin_r 0 (f (bB c))). pose proof (Rmin_l 0 (f (bC c))). pose proof (Rmin_r 0 (f (bC c))).
    repeat (destruct H1 as [<-|H1]; [lra|]). destruct H1.
Qed.

(** * One axis of the grid *)
Definition offset1 (g s : R) : R := (g * s - Rmin 0 s)%R.
Lemma offset1_bounds g s : (0 <= g < 1)%R -> (0 <= offset1 g s <= Rabs s)%R.
Proof. intros H. unfold offset1, Rmin, Rabs. destruct (Rle_dec 0 s), (Rcase_abs s); nra. Qed.
Lemma offset1_top g s : (0 <= g < 1)%R -> (offset1 g s = Rabs s <-> s <= 0 /\ (g = 0 \/ s = 0))%R.
Proof.
  intros H. unfold offset1, Rmin, Rabs. destruct (Rle_dec 0 s), (Rcase_abs s); split; intros K;
    first [lra | (split; [lra|first [left; nra | right; lra | right; nra]]) | nra | (destruct K as [_ [K1|K1]]; rewrite K1; lra)].
Qed.

(** The bin index of a point of the box is in range unless the point sits
    exactly on the far face and the box is a whole number of bins long. *)
Lemma axis_range_iff a b c o g0 g1 g2 size : (0 < size)%R -> (0 <= g0 < 1)%R -> (0 <= g1 < 1)%R -> (0 <= g2 < 1)%R ->
  (0 <= axis_bin (o + g0 * a + g1 * b + g2 * c) (o + Rmin 0 a + Rmin 0 b + Rmin 0 c) size < axis_num (Rabs a + Rabs b + Rabs c) size <->
   ~ ((a <= 0 /\ (g0 = 0 \/ a = 0)) /\ (b <= 0 /\ (g1 = 0 \/ b = 0)) /\ (c <= 0 /\ (g2 = 0 \/ c = 0)) /\
      exists k, Rabs a + Rabs b + Rabs c = IZR k * size)%R).
Proof.
  intros Hs H0 H1 H2. unfold axis_bin, axis_num.
  replace (o + g0 * a + g1 * b + g2 * c - (o + Rmin 0 a + Rmin 0 b + Rmin 0 c))%R with (offset1 g0 a + offset1 g1 b + offset1 g2 c)%R by (unfold offset1; ring).
  pose proof (offset1_bounds g0 a H0) as B0. pose proof (offset1_bounds g1 b H1) as B1. pose proof (offset1_bounds g2 c H2) as B2.
  pose proof (offset1_top g0 a H0) as T0. pose proof (offset1_top g1 b H1) as T1. pose proof (offset1_top g2 c H2) as T2.
  rewrite <- T0, <- T1, <- T2. clear T0 T1 T2.
  set (y0 := offset1 g0 a) in *. set (y1 := offset1 g1 b) in *. set (y2 := offset1 g2 c) in *.
  set (L := (Rabs a + Rabs b + Rabs c)%R) in *.
  assert (Hi : (0 < / size)%R) by (apply Rinv_0_lt_compat; exact Hs).
  assert (Hy : (0 <= (y0 + y1 + y2) / size)%R) by (unfold Rdiv; apply Rmult_le_pos; lra).
  assert (HyL : (y0 + y1 + y2 <= L)%R) by (unfold L; lra).
  split.
  - intros [_ H] [E0 [E1 [E2 [k E]]]].
    assert (Q : (y0 + y1 + y2 = IZR k * size)%R) by (rewrite <- E; unfold L; lra).
    rewrite Q, E in H. assert (F : (IZR k * size / size = IZR k)%R) by (field; lra). rewrite F in H.
    rewrite (floorZ_unique (IZR k) k), (ceilZ_unique (IZR k) k) in H by lra. lia.
  - intros H. split; [apply floorZ_ge; exact Hy|].
    destruct (Rle_lt_or_eq_dec _ _ HyL) as [D|D].
    + apply lt_IZR. destruct (floorZ_spec ((y0 + y1 + y2) / size)) as [F _]. destruct (ceilZ_spec (L / size)) as [_ C].
      assert ((y0 + y1 + y2) / size < L / size)%R by (unfold Rdiv; apply Rmult_lt_compat_r; assumption). lra.
    + rewrite D. destruct (floorZ_spec (L / size)) as [F1 F2]. destruct (ceilZ_spec (L / size)) as [C1 C2].
      apply lt_IZR. destruct (Rle_lt_or_eq_dec _ _ F1) as [K|K]; [lra|].
      exfalso. apply H. repeat split; try (unfold L in D; lra). exists (floorZ (L / size)). rewrite K. field. lra.
Qed.

(** * Points of the box *)
Definition box_point (c : cell) (p : vec) : Prop :=
  exists g0 g1 g2, (0 <= g0 < 1)%R /\ (0 <= g1 < 1)%R /\ (0 <= g2 < 1)%R /\ p = vadd (origin c) (comb (bA c) (bB c) (bC c) g0 g1 g2).

(** Along no axis can a point lie on a far face that is a whole number of bins away. *)
Definition axis_fits (f : vec -> R) (c : cell) (size : R) : Prop :=
  (0 < f (bA c) \/ 0 < f (bB c) \/ 0 < f (bC c) \/ forall k, Rabs (f (bA c)) + Rabs (f (bB c)) + Rabs (f (bC c)) <> IZR k * size)%R.
Definition box_fits (c : cell) (sizes : vec) : Prop :=
  axis_fits vx c (vx sizes) /\ axis_fits vy c (vy sizes) /\ axis_fits vz c (vz sizes).

Lemma box_point_in sizes pbc c p : positive3 sizes -> box_fits c sizes -> box_point c p ->
  in_box (g_num (make_grid sizes pbc c)) (bin_xyz (make_grid sizes pbc c) p).
Proof.
  intros [S0 [S1 S2]] [F0 [F1 F2]] [g0 [g1 [g2 [G0 [G1 [G2 ->]]]]]].
  unfold bin_xyz, make_grid, min_limit. cbn [g_num g_min g_size in_box vx vy vz fst snd projected_lengths].
  fold (vx sizes) (vy sizes) (vz sizes).
  rewrite (min_along_eq vx c linear_vx), (min_along_eq vy c linear_vy), (min_along_eq vz c linear_vz).
  assert (K : forall f size, linear f -> (0 < size)%R -> axis_fits f c size ->
    0 <= axis_bin (f (vadd (origin c) (comb (bA c) (bB c) (bC c) g0 g1 g2)))
      (f (origin c) + Rmin 0 (f (bA c)) + Rmin 0 (f (bB c)) + Rmin 0 (f (bC c)))%R size
    < axis_num (Rabs (f (bA c)) + Rabs (f (bB c)) + Rabs (f (bC c)))%R size).
  { intros f size Hf Hs Hfit. rewrite Hf. apply axis_range_iff; [exact Hs|exact G0|exact G1|exact G2|].
    intros [E0 [E1 [E2 [k E]]]]. destruct Hfit as [H|[H|[H|H]]]; [lra..|]. apply (H k). exact E. }
  split; [|split]; [apply (K vx)|apply (K vy)|apply (K vz)];
    first [exact linear_vx | exact linear_vy | exact linear_vz | assumption].
Qed.

(** The copies of wrapped atoms are points of the box of the supercell. *)
Lemma supercell_box_point s0 s1 s2 c sup p : 0 < s0 -> 0 < s1 -> 0 < s2 -> length (numbers c) = length (coords c) -> wrapped c ->
  make_supercell s0 s1 s2 c = Ok sup -> In p (coords sup) -> box_point sup p.
Proof.
  intros P0 P1 P2 Hn Hw H Hp. rewrite make_supercell_ok in H by assumption.
  apply (f_equal (fun r => match r with Ok l => l | Err _ => sup end)) in H. cbv beta iota in H. subst sup. cbn [coords] in Hp.
  unfold copies in Hp. apply in_flat_map in Hp as [[[i j] k] [Ht Hp]]. apply in_map_iff in Hp as [x [<- Hx]].
  unfold wrapped in Hw. rewrite Forall_forall in Hw. destruct (Hw x Hx) as [f0 [f1 [f2 [F0 [F1 [F2 ->]]]]]].
  apply shifts3_in in Ht. destruct Ht as [T0 [T1 T2]].
  destruct (scale_range_spec s0 P0) as [L0 _]. destruct (scale_range_spec s1 P1) as [L1 _]. destruct (scale_range_spec s2 P2) as [L2 _].
  set (a0 := fst (scale_range s0)) in *. set (a1 := fst (scale_range s1)) in *. set (a2 := fst (scale_range s2)) in *.
  assert (K : forall s a t f, 0 < s -> a <= t <= a + s - 1 -> (0 <= f < 1)%R -> (0 <= (f + IZR t - IZR a) / IZR s < 1)%R).
  { intros s a t f Hs Ht Hf. apply IZR_lt in Hs. assert (E : (IZR a <= IZR t <= IZR (a + s - 1))%R) by (split; apply IZR_le; lia).
    rewrite minus_IZR, plus_IZR in E. assert (0 < / IZR s)%R by (apply Rinv_0_lt_compat; exact Hs). unfold Rdiv. split.
    - apply Rmult_le_pos; lra.
    - apply Rmult_lt_reg_r with (IZR s); [exact Hs|]. rewrite Rmult_assoc, Rinv_l by lra. lra. }
  unfold box_point. cbn [origin bA bB bC].
  exists ((f0 + IZR i - IZR a0) / IZR s0)%R, ((f1 + IZR j - IZR a1) / IZR s1)%R, ((f2 + IZR k - IZR a2) / IZR s2)%R.
  split; [apply K; [exact P0|lia|exact F0]|]. split; [apply K; [exact P1|lia|exact F1]|]. split; [apply K; [exact P2|lia|exact F2]|].
  assert (N0 : IZR s0 <> 0%R) by (apply not_0_IZR; lia). assert (N1 : IZR s1 <> 0%R) by (apply not_0_IZR; lia). assert (N2 : IZR s2 <> 0%R) by (apply not_0_IZR; lia).
  cbn [shift_by]. generalize (bA c) (bB c) (bC c). intros A B C. generalize dependent (IZR s0). generalize dependent (IZR s1). generalize dependent (IZR s2).
  clear. intros r2 N2 r1 N1 r0 N0.
  destruct A as [[A0 A1] A2], B as [[B0 B1] B2], C as [[C0 C1] C2]. vec_unfold. f_equal; [f_equal|]; field; auto.
Qed.

Lemma faces_fit s0 s1 s2 c sup sizes : 0 < s0 -> 0 < s1 -> 0 < s2 -> length (numbers c) = length (coords c) -> faces_positive c ->
  make_supercell s0 s1 s2 c = Ok sup -> box_fits sup sizes.
Proof.
  intros P0 P1 P2 Hn HF H. rewrite make_supercell_ok in H by assumption.
  apply (f_equal (fun r => match r with Ok l => l | Err _ => sup end)) in H. cbv beta iota in H. subst sup.
  apply IZR_lt in P0, P1, P2. unfold box_fits, axis_fits. cbn [bA bB bC].
  destruct HF as [X [Y Z]]. unfold vscale, vx, vy, vz in *. cbn [fst snd].
  assert (K : forall r x, (0 < r -> 0 < x -> 0 < r * x)%R) by (intros; apply Rmult_lt_0_compat; assumption).
  split; [|split].
  - destruct X as [X|[X|X]]; auto.
  - destruct Y as [Y|[Y|Y]]; auto.
  - destruct Z as [Z|[Z|Z]]; auto.
Qed.

(** * Fractional distance and planes *)
Lemma cauchy u v : (dot u v * dot u v <= norm2 u * norm2 v)%R.
Proof.
  destruct u as [[u0 u1] u2], v as [[v0 v1] v2]. vec_unfold.
  pose proof (Rle_0_sqr (u0 * v1 - u1 * v0)). pose proof (Rle_0_sqr (u1 * v2 - u2 * v1)). pose proof (Rle_0_sqr (u2 * v0 - u0 * v2)).
  unfold Rsqr in *. lra.
Qed.
Lemma norm2_nonneg v : (0 <= norm2 v)%R.
Proof.
  destruct v as [[v0 v1] v2]. vec_unfold. pose proof (Rle_0_sqr v0). pose proof (Rle_0_sqr v1). pose proof (Rle_0_sqr v2). unfold Rsqr in *. lra.
Qed.
Lemma norm2_zero v : norm2 v = 0%R -> v = (0, 0, 0)%R.
Proof.
  destruct v as [[v0 v1] v2]. vec_unfold. intros H. f_equal; [f_equal|]; nra.
Qed.
Lemma dot_normalize a n : dot a (normalize n) = (dot a n / sqrt (norm2 n))%R.
Proof. unfold normalize, dot, vx, vy, vz. cbn [fst snd]. unfold Rdiv. ring. Qed.
Lemma norm_pos a n : dot a n <> 0%R -> (0 < norm2 n)%R.
Proof.
  intros H. destruct (Rle_lt_or_eq_dec _ _ (norm2_nonneg n)) as [D|D]; [exact D|]. exfalso. apply H.
  symmetry in D. apply norm2_zero in D. rewrite D. destruct a as [[? ?] ?]. vec_unfold. ring.
Qed.

Lemma plane_dist_pos a n : dot a n <> 0%R -> (0 < Rabs (dot a (normalize n)))%R.
Proof.
  intros H. rewrite dot_normalize. pose proof (norm_pos a n H) as Hn. apply sqrt_lt_R0 in Hn.
  apply Rabs_pos_lt. intros E. apply H. apply (Rmult_eq_compat_r (sqrt (norm2 n))) in E.
  unfold Rdiv in E. rewrite Rmult_assoc, Rinv_l in E by lra. lra.
Qed.

Lemma frac_bound rcut a n v r : (0 < rcut)%R -> dot a n <> 0%R -> dot v n = (r * dot a n)%R -> (norm2 v < rcut * rcut)%R ->
  (Rabs r < rcut / Rabs (dot a (normalize n)))%R.
Proof.
  intros Hr Hn Hv Hd. pose proof (norm_pos a n Hn) as Np. pose proof (sqrt_lt_R0 _ Np) as Sp.
  pose proof (sqrt_sqrt _ (Rlt_le _ _ Np)) as SS. pose proof (cauchy v n) as CS. rewrite Hv in CS.
  rewrite dot_normalize. set (s := sqrt (norm2 n)) in *. set (e := dot a n) in *.
  unfold Rdiv. rewrite Rabs_mult, Rabs_inv, (Rabs_right s) by lra.
  assert (Ep : (0 < Rabs e)%R) by (apply Rabs_pos_lt; exact Hn).
  rewrite Rinv_mult, Rinv_inv.
  apply Rmult_lt_reg_r with (Rabs e); [exact Ep|].
  replace (rcut * (/ Rabs e * s) * Rabs e)%R with (rcut * s)%R by (field; lra).
  rewrite <- Rabs_mult. apply Rabs_def1.
  - assert (~ (rcut * s <= r * e)%R); [|lra]. intros K. assert (rcut * s * (rcut * s) <= r * e * (r * e))%R by (apply Rmult_le_compat; nra). nra.
  - assert (~ (r * e <= - (rcut * s))%R); [|lra]. intros K. assert (rcut * s * (rcut * s) <= - (r * e) * - (r * e))%R by (apply Rmult_le_compat; nra). nra.
Qed.

(** The copies reach far enough. *)
Lemma image_bound rcut d f f' t : (0 < d)%R -> (0 <= f < 1)%R -> (0 <= f' < 1)%R ->
  (Rabs (f + IZR t - f') < rcut / d)%R -> - ceilZ (rcut / d) <= t <= ceilZ (rcut / d).
Proof.
  intros Hd Hf Hf' H. apply Rabs_def2 in H as [H1 H2]. destruct (ceilZ_spec (rcut / d)) as [_ C].
  set (e := ceilZ (rcut / d)) in *.
  assert (A : (IZR t < IZR (e + 1))%R) by (rewrite plus_IZR; lra).
  assert (B : (IZR (- (e + 1)) < IZR t)%R) by (rewrite opp_IZR, plus_IZR; lra).
  apply lt_IZR in A, B. lia.
Qed.
