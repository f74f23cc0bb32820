From Verif Require Import Vec NbModel NbSpec StructProofs TextProofs NbListProofs NbSearchProofs NbGeomProofs NbProofs.
Open Scope Z_scope.

(** * The supercell is long enough for the default bins *)
Lemma comp_le_norm f n : f = vx \/ f = vy \/ f = vz -> (Rabs (f n) <= sqrt (norm2 n))%R.
Proof.
  intros Hf. rewrite <- sqrt_Rsqr_abs. apply sqrt_le_1_alt. destruct n as [[a b] c]. unfold Rsqr.
  pose proof (Rle_0_sqr a). pose proof (Rle_0_sqr b). pose proof (Rle_0_sqr c). unfold Rsqr in *.
  destruct Hf as [->|[->| ->]]; vec_unfold; lra.
Qed.

(** One lattice direction: the scaling is large against the plane distance. *)
Lemma scaling_long rcut a n : (0 < rcut)%R -> dot a n <> 0%R ->
  (2 * rcut * sqrt (norm2 n) < IZR (scaling1 rcut true (Rabs (dot a (normalize n)))) * Rabs (dot a n))%R.
Proof.
  intros Hr Hn. pose proof (norm_pos a n Hn) as Np. apply sqrt_lt_R0 in Np.
  cbn [scaling1]. rewrite plus_IZR, mult_IZR. rewrite dot_normalize. unfold Rdiv at 1 2. rewrite Rabs_mult, Rabs_inv, (Rabs_right (sqrt _)) by lra.
  set (s := sqrt (norm2 n)) in *. set (e := Rabs (dot a n)). assert (Ep : (0 < e)%R) by (apply Rabs_pos_lt; exact Hn).
  destruct (ceilZ_spec (rcut * / (e * / s))) as [_ C]. set (k := ceilZ _) in *.
  assert (C' : (rcut * s <= IZR k * e)%R).
  { apply Rmult_le_compat_r with (r := e) in C; [|lra]. replace (rcut * / (e * / s) * e)%R with (rcut * s)%R in C by (field; lra). exact C. }
  nra.
Qed.

Lemma axis_long rcut w0 w1 w2 c f : (0 < rcut)%R -> det (bA c) (bB c) (bC c) <> 0%R -> f = vx \/ f = vy \/ f = vz ->
  (w0 = false -> f (bA c) = 0%R) -> (w1 = false -> f (bB c) = 0%R) -> (w2 = false -> f (bC c) = 0%R) ->
  (2 * rcut < IZR (scaling1 rcut w0 (vx (interplanar c))) * Rabs (f (bA c)) +
              IZR (scaling1 rcut w1 (vy (interplanar c))) * Rabs (f (bB c)) +
              IZR (scaling1 rcut w2 (vz (interplanar c))) * Rabs (f (bC c)))%R.
Proof.
  intros Hr Hdet Hf H0 H1 H2. unfold interplanar. cbn [vx vy vz fst snd].
  assert (E1 : dot (bB c) (cross (bA c) (bC c)) = (- det (bA c) (bB c) (bC c))%R) by (clear; generalize (bA c) (bB c) (bC c); intros; vec_ring).
  assert (E2 : dot (bC c) (cross (bA c) (bB c)) = det (bA c) (bB c) (bC c)) by (clear; generalize (bA c) (bB c) (bC c); intros; vec_ring).
  assert (EX : det (bA c) (bB c) (bC c) = (f (bA c) * f (cross (bB c) (bC c)) - f (bB c) * f (cross (bA c) (bC c)) + f (bC c) * f (cross (bA c) (bB c)))%R).
  { clear - Hf. generalize (bA c) (bB c) (bC c). intros A B C. destruct Hf as [->|[->| ->]]; vec_ring. }
  assert (L0 := scaling_long rcut (bA c) (cross (bB c) (bC c)) Hr Hdet).
  assert (L1 := scaling_long rcut (bB c) (cross (bA c) (bC c)) Hr). rewrite E1 in L1. specialize (L1 ltac:(lra)). rewrite Rabs_Ropp in L1.
  assert (L2 := scaling_long rcut (bC c) (cross (bA c) (bB c)) Hr). rewrite E2 in L2. specialize (L2 Hdet).
  fold (det (bA c) (bB c) (bC c)) in L0.
  pose proof (comp_le_norm f (cross (bB c) (bC c)) Hf) as B0. pose proof (comp_le_norm f (cross (bA c) (bC c)) Hf) as B1. pose proof (comp_le_norm f (cross (bA c) (bB c)) Hf) as B2.
  assert (T : (Rabs (det (bA c) (bB c) (bC c)) <= Rabs (f (bA c)) * sqrt (norm2 (cross (bB c) (bC c))) + Rabs (f (bB c)) * sqrt (norm2 (cross (bA c) (bC c))) + Rabs (f (bC c)) * sqrt (norm2 (cross (bA c) (bB c))))%R).
  { rewrite EX at 1. eapply Rle_trans; [apply Rabs_triang|]. eapply Rle_trans; [apply Rplus_le_compat_r; unfold Rminus; apply Rabs_triang|].
    rewrite Rabs_Ropp, !Rabs_mult. repeat apply Rplus_le_compat; apply Rmult_le_compat_l; try assumption; apply Rabs_pos. }
  assert (Dp : (0 < Rabs (det (bA c) (bB c) (bC c)))%R) by (apply Rabs_pos_lt; exact Hdet).
  set (D := Rabs (det (bA c) (bB c) (bC c))) in *.
  set (n0 := sqrt (norm2 (cross (bB c) (bC c)))) in *. set (n1 := sqrt (norm2 (cross (bA c) (bC c)))) in *. set (n2 := sqrt (norm2 (cross (bA c) (bB c)))) in *.
  pose proof (Rabs_pos (f (bA c))) as U0. pose proof (Rabs_pos (f (bB c))) as U1. pose proof (Rabs_pos (f (bC c))) as U2.
  set (u0 := Rabs (f (bA c))) in *. set (u1 := Rabs (f (bB c))) in *. set (u2 := Rabs (f (bC c))) in *.
  (* a direction contributes at least its share, strictly if it contributes at all *)
  assert (K : forall (w : bool) v x nn d, (w = false -> v = 0%R) -> x = Rabs v -> (0 <= x)%R ->
     (2 * rcut * nn < IZR (scaling1 rcut true d) * D)%R ->
     (2 * rcut * (x * nn) <= IZR (scaling1 rcut w d) * x * D)%R /\ ((0 < x)%R -> (2 * rcut * (x * nn) < IZR (scaling1 rcut w d) * x * D)%R)).
  { intros w v x nn d Hw Hx Hx0 HL. destruct w.
    - split; [|intros Hp]; nra.
    - rewrite Hw, Rabs_R0 in Hx by reflexivity. subst x. split; [|intros Hp]; lra. }
  destruct (K w0 _ u0 _ _ H0 eq_refl U0 L0) as [A0 S0]. destruct (K w1 _ u1 _ _ H1 eq_refl U1 L1) as [A1 S1]. destruct (K w2 _ u2 _ _ H2 eq_refl U2 L2) as [A2 S2].
  clear K L0 L1 L2.
  set (q0 := IZR (scaling1 rcut w0 _)) in *. set (q1 := IZR (scaling1 rcut w1 _)) in *. set (q2 := IZR (scaling1 rcut w2 _)) in *.
  apply Rmult_lt_reg_r with D; [exact Dp|].
  apply Rle_lt_trans with (2 * rcut * (u0 * n0) + 2 * rcut * (u1 * n1) + 2 * rcut * (u2 * n2))%R; [nra|].
  destruct (Rle_lt_or_eq_dec _ _ U0) as [P|P]; [specialize (S0 P); lra|].
  destruct (Rle_lt_or_eq_dec _ _ U1) as [P'|P']; [specialize (S1 P'); lra|].
  destruct (Rle_lt_or_eq_dec _ _ U2) as [P''|P'']; [specialize (S2 P''); lra|].
  exfalso. rewrite <- P, <- P', <- P'' in T. lra.
Qed.

Lemma ext_half rcut : (0 < rcut)%R -> axis_ext rcut (rcut / 2) = 2.
Proof. intros H. unfold axis_ext. apply ceilZ_unique. replace (rcut / (rcut / 2))%R with 2%R by (field; lra). lra. Qed.
Lemma num_half rcut L : (0 < rcut)%R -> (2 * rcut < L)%R -> 5 <= axis_num L (rcut / 2).
Proof.
  intros H HL. unfold axis_num. assert (4 < ceilZ (L / (rcut / 2))); [|lia]. apply ceilZ_gt.
  replace (L / (rcut / 2))%R with (L * 2 * / rcut)%R by (field; lra).
  apply Rmult_lt_reg_r with rcut; [exact H|]. rewrite Rmult_assoc, Rinv_l by lra. lra.
Qed.

Definition half_bins (rcut : R) : vec := ((rcut / 2)%R, (rcut / 2)%R, (rcut / 2)%R).
Lemma half_bins_pos rcut : (0 < rcut)%R -> positive3 (half_bins rcut).
Proof. intros H. unfold positive3, half_bins. cbn. lra. Qed.

Lemma default_wide rcut pbc c sup : (0 < rcut)%R -> proper c -> aligned_pbc pbc c ->
  (let '(s0, s1, s2) := scalings rcut pbc c in make_supercell s0 s1 s2 c) = Ok sup ->
  wide_enough rcut (make_grid (half_bins rcut) pbc sup).
Proof.
  intros Hr [Hnum Hdet] Hal H. destruct pbc as [[w0 w1] w2]. cbn [scalings] in H.
  destruct (interplanar_pos c Hdet) as [D0 [D1 D2]].
  destruct (scaling1_spec rcut w0 _ Hr D0) as [P0 _]. destruct (scaling1_spec rcut w1 _ Hr D1) as [P1 _]. destruct (scaling1_spec rcut w2 _ Hr D2) as [P2 _].
  rewrite make_supercell_ok in H by assumption.
  apply (f_equal (fun r => match r with Ok l => l | Err _ => sup end)) in H. cbv beta iota in H. subst sup.
  unfold wide_enough, ext3, make_grid, half_bins, projected_lengths. cbn [g_size g_num g_pbc vx vy vz fst snd bA bB bC vscale].
  rewrite !ext_half by exact Hr. apply IZR_lt in P0, P1, P2.
  rewrite !Rabs_mult. rewrite !(Rabs_right (IZR (scaling1 _ _ _))) by (apply Rle_ge, Rlt_le; assumption).
  cbn [aligned_pbc] in Hal.
  assert (K : forall f, f = vx \/ f = vy \/ f = vz -> (w0 = false -> f (bA c) = 0%R) /\ (w1 = false -> f (bB c) = 0%R) /\ (w2 = false -> f (bC c) = 0%R) ->
    2 * 2 + 1 <= axis_num (IZR (scaling1 rcut w0 (vx (interplanar c))) * Rabs (f (bA c)) +
              IZR (scaling1 rcut w1 (vy (interplanar c))) * Rabs (f (bB c)) +
              IZR (scaling1 rcut w2 (vz (interplanar c))) * Rabs (f (bC c)))%R (rcut / 2)).
  { intros f Hf [A0 [A1 A2]]. apply num_half; [exact Hr|]. apply axis_long; assumption. }
  split; [|split]; intros ->.
  - apply (K vx); [auto|]. apply Hal. auto.
  - apply (K vy); [auto|]. apply Hal. auto.
  - apply (K vz); [auto|]. apply Hal. auto.
Qed.

(** * Lists without repetitions *)
Lemma lists_nodup rcut sizes pbc c sup lists : (0 < rcut)%R -> positive3 sizes -> proper c -> wrapped c -> faces_positive c ->
  neighbor_lists rcut sizes pbc c = Ok (sup, lists) -> wide_enough rcut (make_grid sizes pbc sup) ->
  Forall (@NoDup Z) lists.
Proof.
  intros Hr Hs Hp Hw Hf H Hwide.
  destruct (neighbor_lists_spec rcut sizes pbc c Hr Hs Hp Hw) as [sup' [lists' [E [Hlen [HS [Hb HI]]]]]].
  { intros sup' H'. destruct Hp as [Hnum Hdet]. destruct pbc as [[w0 w1] w2]. cbn [scalings] in H'.
    destruct (interplanar_pos c Hdet) as [D0 [D1 D2]].
    destruct (scaling1_spec rcut w0 _ Hr D0) as [P0 _]. destruct (scaling1_spec rcut w1 _ Hr D1) as [P1 _]. destruct (scaling1_spec rcut w2 _ Hr D2) as [P2 _].
    eapply faces_fit; [exact P0|exact P1|exact P2|exact Hnum|exact Hf|exact H']. }
  rewrite E in H. injection H as -> ->.
  apply Forall_forall. intros l Hl. apply In_nth_error in Hl as [i Hi].
  assert (Hil : (i < length (coords c))%nat) by (rewrite <- Hlen; apply nth_error_Some; congruence).
  destruct (nth_error (coords c) i) as [xi|] eqn:Ex; [|apply nth_error_None in Ex; lia].
  destruct (HI i xi Ex) as [l' [Hl' [Hin [HSr _]]]]. rewrite Hi in Hl'. injection Hl' as <-.
  eapply search_nodup; [exact Hb| |exact Hwide|exact HSr].
  unfold all_in_box in Hb. rewrite Forall_forall in Hb. apply Hb. exact Hin.
Qed.

Lemma supercell_of_lists rcut sizes pbc c sup lists : neighbor_lists rcut sizes pbc c = Ok (sup, lists) ->
  (let '(s0, s1, s2) := scalings rcut pbc c in make_supercell s0 s1 s2 c) = Ok sup.
Proof.
  destruct pbc as [[w0 w1] w2]. rewrite neighbor_lists_unfold. cbv zeta. cbn [scalings].
  destruct (make_supercell _ _ _ c) as [s|]; [|discriminate]. cbn [bind].
  match goal with |- context [mapM ?f ?l] => destruct (mapM f l) as [ls|]; [|discriminate] end. cbn [bind]. congruence.
Qed.

Lemma default_nodup rcut pbc c sup lists : (0 < rcut)%R -> proper c -> wrapped c -> faces_positive c -> aligned_pbc pbc c ->
  neighbor_lists_default rcut pbc c = Ok (sup, lists) -> Forall (@NoDup Z) lists.
Proof.
  intros Hr Hp Hw Hf Ha H. unfold neighbor_lists_default in H. fold (half_bins rcut) in H.
  eapply lists_nodup; [exact Hr|apply half_bins_pos, Hr|exact Hp|exact Hw|exact Hf|exact H|].
  eapply default_wide; [exact Hr|exact Hp|exact Ha|]. eapply supercell_of_lists, H.
Qed.

(** * Repetitions *)
Lemma nodup_app_r {A} (l1 l2 : list A) : NoDup (l1 ++ l2) -> NoDup l2.
Proof. induction l1 as [|a r IH]; intros H; [exact H|]. inversion H; subst. apply IH. assumption. Qed.

Lemma flat_map_dup {A B} (f : A -> list B) l1 a l2 b l3 x : In x (f a) -> In x (f b) -> ~ NoDup (flat_map f (l1 ++ a :: l2 ++ b :: l3)).
Proof.
  intros Ha Hb H. rewrite flat_map_app in H. cbn [flat_map] in H.
  apply nodup_app_r in H. rewrite flat_map_app in H. cbn [flat_map] in H.
  apply in_split in Ha as [u [v E]]. rewrite E in H. rewrite <- app_assoc in H. apply nodup_app_r in H. cbn [app] in H.
  inversion H as [|? ? Hn _]; subst. apply Hn. rewrite !in_app_iff. right. right. left. exact Hb.
Qed.

Lemma in_two_split {A} (l : list A) i j a b : (i < j)%nat -> nth_error l i = Some a -> nth_error l j = Some b ->
  exists l1 l2 l3, l = l1 ++ a :: l2 ++ b :: l3.
Proof.
  intros Hij Ha Hb. apply nth_error_split in Ha as [l1 [r [-> Hl]]]. exists l1.
  rewrite nth_error_app2 in Hb by lia. destruct (j - length l1)%nat as [|k] eqn:E; [lia|]. cbn in Hb.
  apply nth_error_split in Hb as [l2 [l3 [-> _]]]. exists l2, l3. reflexivity.
Qed.

Lemma search_dup rcut g pos centre l i j t t' m :
  all_in_box g pos -> search rcut g pos centre = Ok l -> (i < j)%nat ->
  nth_error (ext_grid (ext3 rcut g)) i = Some t -> nth_error (ext_grid (ext3 rcut g)) j = Some t' ->
  box_of (g_num g) (g_pbc g) (bin_xyz g centre) t = box_of (g_num g) (g_pbc g) (bin_xyz g centre) t' ->
  (exists q, arr_get pos m = Ok q /\ bin_xyz g q = box_of (g_num g) (g_pbc g) (bin_xyz g centre) t /\
    (1 / 1000 < dist2 q centre < rcut * rcut)%R) ->
  ~ NoDup l.
Proof.
  intros Hb H Hij Hi Hj Et [q [Hq [Eq Hd]]]. rewrite search_ok in H by exact Hb.
  apply (f_equal (fun r => match r with Ok l => l | Err _ => [] end)) in H. cbv beta iota in H. subst l.
  rewrite neigh_bins_eq, flat_map_map. destruct (in_two_split _ _ _ _ _ Hij Hi Hj) as [l1 [l2 [l3 ->]]].
  assert (Hin : In m (hits rcut pos centre (map (fun p => flat (g_num g) (bin_xyz g p)) pos)
     (cell_of (g_num g) (box_of (g_num g) (g_pbc g) (bin_xyz g centre) t)))).
  { apply hits_in. apply arr_get_nth in Hq as G. destruct G as [G1 G2]. rewrite <- Eq.
    assert (B : in_box (g_num g) (bin_xyz g q)) by (unfold all_in_box in Hb; rewrite Forall_forall in Hb; apply Hb; eapply nth_error_In, G2).
    pose proof (flat_range _ _ B). unfold cell_of. apply in_boxb_iff in B. rewrite B.
    split; [lia|]. split; [exact G1|]. split; [rewrite nth_error_map, G2; reflexivity|]. exists q. auto. }
  eapply flat_map_dup; [exact Hin|]. rewrite <- Et. exact Hin.
Qed.

(** * Symmetry *)
Lemma is_neighbour_sym rcut pbc c i j a b d : is_neighbour rcut pbc c i j (a, b, d) -> is_neighbour rcut pbc c j i (- a, - b, - d).
Proof.
  intros [xi [xj [Hi [Hj [Ha Hd]]]]]. exists xj, xi. split; [exact Hj|]. split; [exact Hi|]. split.
  - destruct pbc as [[w0 w1] w2]. cbn [allowed] in *. destruct Ha as [A0 [A1 A2]].
    split; [intros H; apply A0 in H; lia|]. split; [intros H; apply A1 in H; lia|intros H; apply A2 in H; lia].
  - replace (dist2 (vadd xi (lattice_vec c (- a, - b, - d))) xj) with (dist2 (vadd xj (lattice_vec c (a, b, d))) xi); [exact Hd|].
    clear. unfold lattice_vec. rewrite !opp_IZR. generalize (bA c) (bB c) (bC c) (IZR a) (IZR b) (IZR d). clear. intros A B C r0 r1 r2. vec_ring.
Qed.

Lemma lattice_opp c a b d xi xj :
  vsub (vadd xi (lattice_vec c (- a, - b, - d))) xj = vscale (-1) (vsub (vadd xj (lattice_vec c (a, b, d))) xi).
Proof.
  unfold lattice_vec. rewrite !opp_IZR. generalize (bA c) (bB c) (bC c) (IZR a) (IZR b) (IZR d). clear. intros A B C r0 r1 r2.
  apply vec_eq; vec_ring.
Qed.
