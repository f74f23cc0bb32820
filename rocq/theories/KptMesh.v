From Verif Require Import Text TextProofs Vec KptModel KptSpec KptProofs.
Open Scope nat_scope.
Open Scope list_scope.

(** ** Path: monotone, Bohr *)
Lemma kdist_nonneg b1 b2 b3 f g : (0 <= kdist b1 b2 b3 f g)%R.
Proof. apply sqrt_pos. Qed.

Lemma jump_dec lines j : jump_at lines j \/ ~ jump_at lines j.
Proof. destruct (In_dec Nat.eq_dec (S j) (jumps (hsp_indices lines))) as [I|I]; rewrite jumps_hsp in I; tauto. Qed.

Lemma steps_monotone l : takes_steps l (fun _ d => (0 <= d)%R) -> non_decreasing l.
Proof.
  intros H i j x y L. revert y. induction L as [|j L IH]; intros y Hx Hy; [rewrite Hx in Hy; injection Hy as ->; lra|].
  destruct (nth_error l j) as [z|] eqn:Ez.
  - specialize (IH z Hx eq_refl). specialize (H j z y Ez Hy). cbn in H. lra.
  - apply nth_error_None in Ez. assert (S j < List.length l) by (apply nth_error_Some; congruence). lia.
Qed.

Lemma path_monotone float_of b1 b2 b3 lines out : get_distance_from_gamma_A float_of b1 b2 b3 lines = Ok out -> non_decreasing out /\ hd_error out = Some 0%R /\ List.length out = List.length lines.
Proof.
  intros E. destruct lines as [|l0 ls]; [discriminate|]. assert (exists fs, Forall2 (reads_coord float_of) (l0 :: ls) fs) as [fs Hf].
  { unfold get_distance_from_gamma_A, split_distances, get_kpt_coords_A, get_kpt_coords_frac in E. destruct (mapM (coord_of float_of) (l0 :: ls)) as [fs|] eqn:Em; [|discriminate].
    exists fs. apply NbMlffProofs.mapM_forall2 in Em. clear - Em. induction Em as [|? ? ? ? He _ IH]; [constructor|]. constructor; [apply coord_of_reads; exact He|exact IH]. }
  destruct (path_ok float_of b1 b2 b3 (l0 :: ls) fs ltac:(discriminate) Hf) as (out' & E' & L & H0 & St). rewrite E in E'. injection E' as <-. split; [|auto].
  apply steps_monotone. intros j x y Hx Hy. destruct (St j x y Hx Hy) as [Sj Sn]. destruct (jump_dec (l0 :: ls) j) as [J|J]; [rewrite (Sj J); lra|].
  assert (Lf := Forall2_length Hf). assert (S j < List.length fs). { rewrite <- Lf, <- L. apply nth_error_Some. congruence. }
  destruct (nth_error fs j) as [f|] eqn:Ef; [|apply nth_error_None in Ef; lia]. destruct (nth_error fs (S j)) as [g|] eqn:Eg; [|apply nth_error_None in Eg; lia].
  rewrite (Sn J f g eq_refl eq_refl). apply kdist_nonneg.
Qed.

Lemma path_bohr float_of b1 b2 b3 lines out : get_distance_from_gamma_A float_of b1 b2 b3 lines = Ok out ->
  get_distance_from_gamma_bohr float_of b1 b2 b3 lines = Ok (map (Rmult (529177249 / 10 ^ 9)) out).
Proof. intros E. unfold get_distance_from_gamma_bohr. rewrite E. cbn [bind]. f_equal. apply map_ext. intros. ring. Qed.

(** ** Rounding *)
Lemma round_cases x : let f := Int_part x in (IZR f <= x < IZR f + 1)%R /\ (np_round x = f /\ (x - IZR f <= 1 / 2)%R \/ np_round x = (f + 1)%Z /\ (1 / 2 <= x - IZR f)%R) /\
  ((x - IZR f = 1 / 2)%R -> Z.even (np_round x) = true).
Proof.
  intros f. destruct (base_Int_part x) as [B1 B2]. fold f in B1, B2. split; [lra|]. unfold np_round. fold f. destruct (Rlt_dec (x - IZR f) (1 / 2)).
  - split; [left; split; [reflexivity|lra]|]. intros; lra.
  - destruct (Rlt_dec (1 / 2) (x - IZR f)); [split; [right; split; [reflexivity|lra]|intros; lra]|].
    destruct (Z.even f) eqn:E; [split; [left; split; [reflexivity|lra]|intros; exact E]|]. split; [right; split; [reflexivity|lra]|]. intros. replace (f + 1)%Z with (Z.succ f) by lia. rewrite Z.even_succ. rewrite <- Z.negb_even, E. reflexivity.
Qed.

Lemma round_half x : (Rabs (x - IZR (np_round x)) <= 1 / 2)%R.
Proof. destruct (round_cases x) as (B & [[-> H]|[-> H]] & _); [|rewrite plus_IZR]; unfold Rabs; destruct (Rcase_abs _); lra. Qed.

Lemma round_nearest x : nearest x (np_round x).
Proof.
  intros m. assert (H := round_half x). destruct (Z.eq_dec m (np_round x)) as [->|N]; [lra|].
  assert (D : (1 <= Rabs (IZR m - IZR (np_round x)))%R). { rewrite <- minus_IZR, <- abs_IZR. apply IZR_le. lia. }
  assert (T := Rabs_triang (IZR m - x) (x - IZR (np_round x))). replace (IZR m - x + (x - IZR (np_round x)))%R with (IZR m - IZR (np_round x))%R in T by ring.
  rewrite (Rabs_minus_sym x (IZR m)). lra.
Qed.

Lemma round_even x : (Rabs (x - IZR (np_round x)) = 1 / 2)%R -> Z.even (np_round x) = true.
Proof.
  destruct (round_cases x) as (B & C & Ev). intros H. apply Ev. destruct C as [[E C]|[E C]]; rewrite E in H; [|rewrite plus_IZR in H]; revert H; unfold Rabs; destruct (Rcase_abs _); lra.
Qed.

Lemma round_mono x y : (x <= y)%R -> (np_round x <= np_round y)%Z.
Proof.
  intros H. destruct (Z_le_gt_dec (np_round x) (np_round y)) as [L|G]; [exact L|exfalso].
  assert (Hx := round_half x). assert (Hy := round_half y). assert (I : (IZR (np_round y) + 1 <= IZR (np_round x))%R) by (rewrite <- plus_IZR; apply IZR_le; lia).
  assert (IZR (np_round x) - x <= 1 / 2)%R by (revert Hx; unfold Rabs; destruct (Rcase_abs _); lra). assert (y - IZR (np_round y) <= 1 / 2)%R by (revert Hy; unfold Rabs; destruct (Rcase_abs _); lra).
  assert (Exy : x = y) by lra. subst y. lia.
Qed.

Lemma round_nonneg x : (0 <= x)%R -> (0 <= np_round x)%Z.
Proof. intros H. assert (np_round 0 = 0)%Z. { assert (X := round_half 0). assert (IZR (np_round 0) < 1)%R by (revert X; unfold Rabs; destruct (Rcase_abs _); lra). assert (-1 < IZR (np_round 0))%R by (revert X; unfold Rabs; destruct (Rcase_abs _); lra).
  apply lt_IZR in H0. assert (-1 < np_round 0)%Z by (apply lt_IZR; exact H1). lia. }
  rewrite <- H0. apply round_mono. exact H. Qed.

(** ** Vacuum *)
Lemma rmax_spec l : forall x, In (rmax x l) (x :: l) /\ forall y, In y (x :: l) -> (y <= rmax x l)%R.
Proof.
  unfold rmax. induction l as [|a l IH]; intros x; cbn [fold_left].
  - split; [left; reflexivity|]. intros y [->|[]]. lra.
  - destruct (IH (Rmax x a)) as [I H]. split.
    + destruct I as [<-|I]; [|right; right; exact I]. unfold Rmax. destruct (Rle_dec x a); [right; left|left]; reflexivity.
    + assert (M := H (Rmax x a) (or_introl eq_refl)). assert (M1 := Rmax_l x a). assert (M2 := Rmax_r x a). intros y [Ey|[Ey|Iy]]; [lra|lra|apply H; right; exact Iy].
Qed.
Lemma rmin_spec l : forall x, In (rmin x l) (x :: l) /\ forall y, In y (x :: l) -> (rmin x l <= y)%R.
Proof.
  unfold rmin. induction l as [|a l IH]; intros x; cbn [fold_left].
  - split; [left; reflexivity|]. intros y [->|[]]. lra.
  - destruct (IH (Rmin x a)) as [I H]. split.
    + destruct I as [<-|I]; [|right; right; exact I]. unfold Rmin. destruct (Rle_dec x a); [left|right; left]; reflexivity.
    + assert (M := H (Rmin x a) (or_introl eq_refl)). assert (M1 := Rmin_l x a). assert (M2 := Rmin_r x a). intros y [Ey|[Ey|Iy]]; [lra|lra|apply H; right; exact Iy].
Qed.

Lemma vacuum_axis_spec L l : l <> [] -> exists e, extent l e /\ forall b, vacuum_axis L l = Ok b <-> (b = true <-> (L - e > 10)%R).
Proof.
  intros Hn. destruct l as [|x r]; [congruence|]. exists (rmax x r - rmin x r)%R. destruct (rmax_spec r x) as [I1 M1], (rmin_spec r x) as [I2 M2]. split.
  - exists (rmin x r), (rmax x r). split; [exact I2|]. split; [exact I1|]. split; [reflexivity|]. intros y Iy. split; [apply M2|apply M1]; exact Iy.
  - intros b. unfold vacuum_axis. destruct (Rlt_dec 10 (L - (rmax x r - rmin x r))) as [H|H]; split.
    + intros E. injection E as <-. split; intros; [exact H|reflexivity].
    + intros E. f_equal. symmetry. apply E. exact H.
    + intros E. injection E as <-. split; intros; [discriminate|contradiction].
    + intros E. f_equal. destruct b; [|reflexivity]. exfalso. apply H. apply E. reflexivity.
Qed.

Lemma extent_unique l e e' : extent l e -> extent l e' -> e = e'.
Proof. intros (lo & hi & Il & Ih & -> & H) (lo' & hi' & Il' & Ih' & -> & H'). assert (A1 := H lo' Il'). assert (A2 := H hi' Ih'). assert (A3 := H' lo Il). assert (A4 := H' hi Ih). lra. Qed.

Lemma vacuum_axis_ok L l : l <> [] -> exists b, vacuum_axis L l = Ok b.
Proof. destruct l; [congruence|]. intros _. eexists. reflexivity. Qed.

Lemma vacuum_flags A B C cart e0 e1 e2 : extent (map vx cart) e0 -> extent (map vy cart) e1 -> extent (map vz cart) e2 ->
  exists f0 f1 f2, judge_vacuum_exist A B C cart = Ok (f0, f1, f2) /\ (f0 = true <-> (vlen A - e0 > 10)%R) /\ (f1 = true <-> (vlen B - e1 > 10)%R) /\ (f2 = true <-> (vlen C - e2 > 10)%R).
Proof.
  intros H0 H1 H2. assert (Hn : cart <> []). { destruct cart; [|discriminate]. destruct H0 as (? & ? & [] & _). }
  assert (Hm : forall f : vec -> R, map f cart <> []) by (intros f; destruct cart; [congruence|discriminate]).
  unfold judge_vacuum_exist. 
  assert (G : forall (X : vec) (f : vec -> R) e, extent (map f cart) e -> exists b, vacuum_axis (vlen X) (map f cart) = Ok b /\ (b = true <-> (vlen X - e > 10)%R)).
  { intros X f e He. destruct (vacuum_axis_ok (vlen X) _ (Hm f)) as [b Eb]. exists b. split; [exact Eb|]. destruct (vacuum_axis_spec (vlen X) _ (Hm f)) as (e' & He' & S0). rewrite (extent_unique _ _ _ He He'). apply S0. exact Eb. }
  destruct (G A vx e0 H0) as (f0 & E0 & F0), (G B vy e1 H1) as (f1 & E1 & F1), (G C vz e2 H2) as (f2 & E2 & F2). unfold vlen in *. rewrite E0, E1, E2. cbn [bind]. exists f0, f1, f2. auto.
Qed.

Lemma vacuum_extents cart : cart <> [] -> forall f : vec -> R, exists e, extent (map f cart) e.
Proof. intros Hn f. destruct (vacuum_axis_spec 0 (map f cart)) as (e & He & _); [destruct cart; [congruence|discriminate]|exists e; exact He]. Qed.

(** One axis: lattice vector [(L,0,0)], the other two without component along it. *)
Lemma slab_axis (coord : vec -> R) A B C cart L e :
  (forall p i j k, coord (vadd p (comb A B C i j k)) = coord p + i * L)%R -> (0 < L)%R -> extent (map coord cart) e -> (L - e > 10)%R -> empty_slab_along coord 10 A B C cart.
Proof.
  intros Hc HL (lo & hi & Il & Ih & -> & H) Hw. exists hi, (lo + L)%R. split; [lra|]. intros p (q & i & j & k & Iq & ->). rewrite Hc. intros [H1 H2].
  assert (B1 := H (coord q) (in_map coord cart q Iq)). destruct (Z_le_gt_dec i 0) as [Hi|Hi].
  - assert (IZR i <= 0)%R by (apply IZR_le; exact Hi). assert (IZR i * L <= 0)%R by nra. lra.
  - assert (1 <= IZR i)%R by (apply IZR_le; lia). assert (L <= IZR i * L)%R by nra. lra.
Qed.

Lemma vacuum_slab0 A B C cart f0 f1 f2 : judge_vacuum_exist A B C cart = Ok (f0, f1, f2) -> (0 < vx A)%R -> vy A = 0%R -> vz A = 0%R -> vx B = 0%R -> vx C = 0%R ->
  f0 = true -> empty_slab_along vx 10 A B C cart.
Proof.
  intros E HA H1 H2 H3 H4 Hf. assert (Hn : cart <> []) by (destruct cart; [discriminate|congruence]).
  destruct (vacuum_extents cart Hn vx) as [e0 He0], (vacuum_extents cart Hn vy) as [e1 He1], (vacuum_extents cart Hn vz) as [e2 He2].
  destruct (vacuum_flags A B C cart e0 e1 e2 He0 He1 He2) as (g0 & g1 & g2 & Eg & G0 & _). rewrite E in Eg. injection Eg as <- <- <-. apply G0 in Hf.
  apply (slab_axis vx A B C cart (vx A) e0); [|exact HA|exact He0|].
  - intros p i j k. destruct A as [[? ?] ?], B as [[? ?] ?], C as [[? ?] ?], p as [[? ?] ?]. vec_unfold. subst. ring.
  - assert (V : vlen A = vx A). { unfold vlen. replace (norm2 A) with (Rsqr (vx A)) by (unfold norm2, dot, Rsqr; rewrite H1, H2; ring). apply sqrt_Rsqr. lra. } rewrite V in Hf. exact Hf.
Qed.
Lemma vacuum_slab1 A B C cart f0 f1 f2 : judge_vacuum_exist A B C cart = Ok (f0, f1, f2) -> (0 < vy B)%R -> vx B = 0%R -> vz B = 0%R -> vy A = 0%R -> vy C = 0%R ->
  f1 = true -> empty_slab_along vy 10 A B C cart.
Proof.
  intros E HA H1 H2 H3 H4 Hf. assert (Hn : cart <> []) by (destruct cart; [discriminate|congruence]).
  destruct (vacuum_extents cart Hn vx) as [e0 He0], (vacuum_extents cart Hn vy) as [e1 He1], (vacuum_extents cart Hn vz) as [e2 He2].
  destruct (vacuum_flags A B C cart e0 e1 e2 He0 He1 He2) as (g0 & g1 & g2 & Eg & _ & G0 & _). rewrite E in Eg. injection Eg as <- <- <-. apply G0 in Hf.
  destruct He1 as (lo & hi & Il & Ih & -> & H). exists hi, (lo + vy B)%R. 
  assert (V : vlen B = vy B). { unfold vlen. replace (norm2 B) with (Rsqr (vy B)) by (unfold norm2, dot, Rsqr; rewrite H1, H2; ring). apply sqrt_Rsqr. lra. } rewrite V in Hf. split; [lra|].
  intros p (q & i & j & k & Iq & ->). assert (Ec : vy (vadd q (comb A B C (IZR i) (IZR j) (IZR k))) = (vy q + IZR j * vy B)%R) by (destruct A as [[? ?] ?], B as [[? ?] ?], C as [[? ?] ?], q as [[? ?] ?]; vec_unfold; subst; ring). rewrite Ec. intros [K1 K2].
  assert (B1 := H (vy q) (in_map vy cart q Iq)). destruct (Z_le_gt_dec j 0) as [Hi|Hi].
  - assert (IZR j <= 0)%R by (apply IZR_le; exact Hi). assert (IZR j * vy B <= 0)%R by nra. lra.
  - assert (1 <= IZR j)%R by (apply IZR_le; lia). assert (vy B <= IZR j * vy B)%R by nra. lra.
Qed.
Lemma vacuum_slab2 A B C cart f0 f1 f2 : judge_vacuum_exist A B C cart = Ok (f0, f1, f2) -> (0 < vz C)%R -> vx C = 0%R -> vy C = 0%R -> vz A = 0%R -> vz B = 0%R ->
  f2 = true -> empty_slab_along vz 10 A B C cart.
Proof.
  intros E HA H1 H2 H3 H4 Hf. assert (Hn : cart <> []) by (destruct cart; [discriminate|congruence]).
  destruct (vacuum_extents cart Hn vx) as [e0 He0], (vacuum_extents cart Hn vy) as [e1 He1], (vacuum_extents cart Hn vz) as [e2 He2].
  destruct (vacuum_flags A B C cart e0 e1 e2 He0 He1 He2) as (g0 & g1 & g2 & Eg & _ & _ & G0). rewrite E in Eg. injection Eg as <- <- <-. apply G0 in Hf.
  destruct He2 as (lo & hi & Il & Ih & -> & H). exists hi, (lo + vz C)%R. 
  assert (V : vlen C = vz C). { unfold vlen. replace (norm2 C) with (Rsqr (vz C)) by (unfold norm2, dot, Rsqr; rewrite H1, H2; ring). apply sqrt_Rsqr. lra. } rewrite V in Hf. split; [lra|].
  intros p (q & i & j & k & Iq & ->). assert (Ec : vz (vadd q (comb A B C (IZR i) (IZR j) (IZR k))) = (vz q + IZR k * vz C)%R) by (destruct A as [[? ?] ?], B as [[? ?] ?], C as [[? ?] ?], q as [[? ?] ?]; vec_unfold; subst; ring). rewrite Ec. intros [K1 K2].
  assert (B1 := H (vz q) (in_map vz cart q Iq)). destruct (Z_le_gt_dec k 0) as [Hi|Hi].
  - assert (IZR k <= 0)%R by (apply IZR_le; exact Hi). assert (IZR k * vz C <= 0)%R by nra. lra.
  - assert (1 <= IZR k)%R by (apply IZR_le; lia). assert (vz C <= IZR k * vz C)%R by nra. lra.
Qed.

Lemma vacuum_no_atoms A B C : judge_vacuum_exist A B C [] = Err ValueError.
Proof. reflexivity. Qed.

(** ** Mesh *)
Lemma mesh_zero A B C b1 b2 b3 cart : get_kmesh A B C b1 b2 b3 cart 0 = Ok (1, 1, 1)%Z.
Proof. unfold get_kmesh. destruct (Req_EM_T 0 0) as [_|N]; [reflexivity|congruence]. Qed.

Lemma mesh_axis_spec density b v : (v = true -> mesh_axis density b v = 1%Z) /\ (v = false -> mesh_count (vlen b / (density * (2 * PI))) (mesh_axis density b v)).
Proof.
  unfold mesh_axis. split; intros ->; [reflexivity|]. replace (density * (2 * PI))%R with (density * 2 * PI)%R by ring. unfold vlen. set (x := (sqrt (norm2 b) / (density * 2 * PI))%R).
  exists (np_round x). split; [apply round_nearest|]. split; [apply round_even|reflexivity].
Qed.

Lemma mesh_spec A B C b1 b2 b3 cart density f0 f1 f2 : (density <> 0)%R -> judge_vacuum_exist A B C cart = Ok (f0, f1, f2) ->
  exists k0 k1 k2, get_kmesh A B C b1 b2 b3 cart density = Ok (k0, k1, k2) /\
  (f0 = true -> k0 = 1%Z) /\ (f0 = false -> mesh_count (vlen b1 / (density * (2 * PI))) k0) /\
  (f1 = true -> k1 = 1%Z) /\ (f1 = false -> mesh_count (vlen b2 / (density * (2 * PI))) k1) /\
  (f2 = true -> k2 = 1%Z) /\ (f2 = false -> mesh_count (vlen b3 / (density * (2 * PI))) k2).
Proof.
  intros Hd E. unfold get_kmesh. destruct (Req_EM_T density 0); [contradiction|]. rewrite E. cbn [bind fst snd].
  exists (mesh_axis density b1 f0), (mesh_axis density b2 f1), (mesh_axis density b3 f2). split; [reflexivity|].
  destruct (mesh_axis_spec density b1 f0), (mesh_axis_spec density b2 f1), (mesh_axis_spec density b3 f2). auto 8.
Qed.

Lemma mesh_axis_pos density b v : (0 < density)%R -> (1 <= mesh_axis density b v)%Z.
Proof.
  intros Hd. unfold mesh_axis. destruct v; [cbn; lia|]. set (x := (sqrt (norm2 b) / (density * 2 * PI))%R).
  assert (0 <= x)%R. { unfold x. apply Rmult_le_pos; [apply sqrt_pos|]. left. apply Rinv_0_lt_compat. assert (P := PI_RGT_0). nra. }
  assert (N := round_nonneg x H). destruct (np_round x =? 0)%Z eqn:E; [lia|]. apply Z.eqb_neq in E. lia.
Qed.

Lemma mesh_pos A B C b1 b2 b3 cart density k0 k1 k2 : (0 <= density)%R -> get_kmesh A B C b1 b2 b3 cart density = Ok (k0, k1, k2) -> (1 <= k0 /\ 1 <= k1 /\ 1 <= k2)%Z.
Proof.
  intros Hd. unfold get_kmesh. destruct (Req_EM_T density 0) as [|N]; [intros E; injection E as <- <- <-; lia|]. assert (0 < density)%R by lra.
  destruct (judge_vacuum_exist A B C cart) as [[[f0 f1] f2]|]; [|discriminate]. cbn [bind fst snd]. intros E. injection E as <- <- <-. split; [|split]; apply mesh_axis_pos; exact H.
Qed.

Lemma mesh_axis_anti d1 d2 b v : (0 < d1 <= d2)%R -> (mesh_axis d2 b v <= mesh_axis d1 b v)%Z.
Proof.
  intros Hd. assert (P1 := mesh_axis_pos d1 b v ltac:(lra)). unfold mesh_axis in *. destruct v; [cbn; lia|].
  set (x := (sqrt (norm2 b) / (d1 * 2 * PI))%R) in *. set (y := (sqrt (norm2 b) / (d2 * 2 * PI))%R) in *. assert (P := PI_RGT_0).
  assert (Hyx : (y <= x)%R). { unfold x, y. apply Rmult_le_compat_l; [apply sqrt_pos|]. apply Rinv_le_contravar; nra. }
  assert (M := round_mono y x Hyx). destruct (np_round y =? 0)%Z eqn:Ey; [exact P1|]. destruct (np_round x =? 0)%Z eqn:Ex; [|exact M]. apply Z.eqb_neq in Ey. apply Z.eqb_eq in Ex.
  assert (0 <= y)%R. { unfold y. apply Rmult_le_pos; [apply sqrt_pos|]. left. apply Rinv_0_lt_compat. nra. } assert (N := round_nonneg y H). lia.
Qed.

Lemma mesh_anti A B C b1 b2 b3 cart d1 d2 k0 k1 k2 m0 m1 m2 : (0 < d1 <= d2)%R -> get_kmesh A B C b1 b2 b3 cart d1 = Ok (k0, k1, k2) -> get_kmesh A B C b1 b2 b3 cart d2 = Ok (m0, m1, m2) ->
  (m0 <= k0 /\ m1 <= k1 /\ m2 <= k2)%Z.
Proof.
  intros Hd. unfold get_kmesh. destruct (Req_EM_T d1 0); [lra|]. destruct (Req_EM_T d2 0); [lra|].
  destruct (judge_vacuum_exist A B C cart) as [[[f0 f1] f2]|]; [|discriminate]. cbn [bind fst snd]. intros E1 E2. injection E1 as <- <- <-. injection E2 as <- <- <-. split; [|split]; apply mesh_axis_anti; exact Hd.
Qed.

(** What the spacing is in the end. *)
Lemma mesh_axis_spacing density b : (0 < density)%R -> let k := mesh_axis density b false in
  (vlen b / (2 * PI) <= density * (IZR k + 1 / 2))%R /\ ((1 < k)%Z -> (density * (IZR k - 1 / 2) <= vlen b / (2 * PI))%R).
Proof.
  intros Hd k. unfold k, mesh_axis. fold (vlen b). assert (P := PI_RGT_0). set (x := (vlen b / (density * 2 * PI))%R). assert (Ex : (vlen b / (2 * PI) = density * x)%R) by (unfold x; field; lra).
  rewrite Ex. assert (H := round_half x). assert (H1 : (x - IZR (np_round x) <= 1 / 2)%R) by (revert H; unfold Rabs; destruct (Rcase_abs _); lra). assert (H2 : (IZR (np_round x) - x <= 1 / 2)%R) by (revert H; unfold Rabs; destruct (Rcase_abs _); lra).
  destruct (Z.eqb_spec (np_round x) 0) as [E|E].
  - rewrite E in H1. split; [apply Rmult_le_compat_l; [lra|lra]|lia].
  - split; [|intros _]; apply Rmult_le_compat_l; lra.
Qed.
Lemma mesh_spacing A B C b1 b2 b3 cart density k0 k1 k2 f0 f1 f2 : (0 < density)%R -> judge_vacuum_exist A B C cart = Ok (f0, f1, f2) -> get_kmesh A B C b1 b2 b3 cart density = Ok (k0, k1, k2) ->
  let good b k := (vlen b / (2 * PI) <= density * (IZR k + 1 / 2))%R /\ ((1 < k)%Z -> (density * (IZR k - 1 / 2) <= vlen b / (2 * PI))%R) in
  (f0 = false -> good b1 k0) /\ (f1 = false -> good b2 k1) /\ (f2 = false -> good b3 k2).
Proof.
  intros Hd Ev. unfold get_kmesh. destruct (Req_EM_T density 0); [lra|]. rewrite Ev. cbn [bind fst snd]. intros E. injection E as <- <- <-. cbv zeta. split; [|split]; intros ->; apply mesh_axis_spacing; exact Hd.
Qed.

Lemma mesh_unbounded A B C b1 b2 b3 cart f1 f2 N : judge_vacuum_exist A B C cart = Ok (false, f1, f2) -> (0 < vlen b1)%R ->
  exists d0, (0 < d0)%R /\ forall d, (0 < d <= d0)%R -> exists k0 k1 k2, get_kmesh A B C b1 b2 b3 cart d = Ok (k0, k1, k2) /\ (N <= k0)%Z.
Proof.
  intros Ev Hb. assert (P := PI_RGT_0). set (N' := Z.max N 0). assert (HN : (0 <= IZR N')%R) by (apply IZR_le; lia).
  set (q := (vlen b1 / (2 * PI))%R). assert (Hq : (0 < q)%R) by (unfold q; apply Rmult_lt_0_compat; [exact Hb|apply Rinv_0_lt_compat; lra]).
  exists (q / (IZR N' + 1))%R. split; [apply Rmult_lt_0_compat; [exact Hq|apply Rinv_0_lt_compat; lra]|]. intros d [Hd1 Hd2].
  destruct (mesh_spec A B C b1 b2 b3 cart d false f1 f2 ltac:(lra) Ev) as (k0 & k1 & k2 & E & _). exists k0, k1, k2. split; [exact E|].
  destruct (mesh_spacing A B C b1 b2 b3 cart d k0 k1 k2 false f1 f2 Hd1 Ev E) as [Hs _]. destruct (Hs eq_refl) as [H _]. fold q in H.
  assert (d * (IZR N' + 1) <= q)%R. { replace q with (q / (IZR N' + 1) * (IZR N' + 1))%R by (field; lra). apply Rmult_le_compat_r; lra. }
  assert (IZR N' < IZR k0)%R by nra. apply lt_IZR in H1. lia.
Qed.

Lemma mesh_axis_negative density b : (density < 0)%R -> (vlen b / (2 * PI) > - density / 2)%R -> (mesh_axis density b false < 0)%Z.
Proof.
  intros Hd Hb. unfold mesh_axis. fold (vlen b). assert (P := PI_RGT_0). set (x := (vlen b / (density * 2 * PI))%R). assert (Ex : (vlen b / (2 * PI) = density * x)%R) by (unfold x; field; lra). rewrite Ex in Hb.
  assert (Hx : (x < - (1 / 2))%R) by nra. assert (H := round_half x). assert (H2 : (IZR (np_round x) - x <= 1 / 2)%R) by (revert H; unfold Rabs; destruct (Rcase_abs _); lra).
  assert (IZR (np_round x) < 0)%R by lra. apply lt_IZR in H0. destruct (Z.eqb_spec (np_round x) 0); lia.
Qed.

Lemma mesh_negative A B C b1 b2 b3 cart density f1 f2 : (density < 0)%R -> judge_vacuum_exist A B C cart = Ok (false, f1, f2) -> (vlen b1 / (2 * PI) > - density / 2)%R ->
  exists k0 k1 k2, get_kmesh A B C b1 b2 b3 cart density = Ok (k0, k1, k2) /\ (k0 < 0)%Z.
Proof.
  intros Hd Ev Hb. unfold get_kmesh. destruct (Req_EM_T density 0); [lra|]. rewrite Ev. cbn [bind fst snd]. do 3 eexists. split; [reflexivity|]. apply mesh_axis_negative; assumption.
Qed.

Lemma round_int n : np_round (IZR n) = n.
Proof.
  assert (H := round_half (IZR n)). rewrite <- minus_IZR, <- abs_IZR in H. assert (IZR (Z.abs (n - np_round (IZR n))) < 1)%R by lra. apply lt_IZR in H0. lia.
Qed.
Lemma vacuum_slabs A B C cart f0 f1 f2 : judge_vacuum_exist A B C cart = Ok (f0, f1, f2) -> (0 < vx A)%R -> (0 < vy B)%R -> (0 < vz C)%R ->
  A = (vx A, 0, 0)%R -> B = (0, vy B, 0)%R -> C = (0, 0, vz C)%R ->
  (f0 = true -> empty_slab_along vx 10 A B C cart) /\ (f1 = true -> empty_slab_along vy 10 A B C cart) /\ (f2 = true -> empty_slab_along vz 10 A B C cart).
Proof.
  intros E HA HB HC EA EB EC. assert (vy A = 0 /\ vz A = 0)%R as [] by (rewrite EA; auto). assert (vx B = 0 /\ vz B = 0)%R as [] by (rewrite EB; auto). assert (vx C = 0 /\ vy C = 0)%R as [] by (rewrite EC; auto).
  split; [|split]; intros F; [eapply vacuum_slab0|eapply vacuum_slab1|eapply vacuum_slab2]; eassumption.
Qed.
Lemma vacuum_all A B C cart : cart <> [] -> exists e0 e1 e2 f0 f1 f2, extent (map vx cart) e0 /\ extent (map vy cart) e1 /\ extent (map vz cart) e2 /\
  judge_vacuum_exist A B C cart = Ok (f0, f1, f2) /\ (f0 = true <-> (vlen A - e0 > 10)%R) /\ (f1 = true <-> (vlen B - e1 > 10)%R) /\ (f2 = true <-> (vlen C - e2 > 10)%R).
Proof.
  intros Hn. destruct (vacuum_extents cart Hn vx) as [e0 He0], (vacuum_extents cart Hn vy) as [e1 He1], (vacuum_extents cart Hn vz) as [e2 He2].
  destruct (vacuum_flags A B C cart e0 e1 e2 He0 He1 He2) as (f0 & f1 & f2 & H). exists e0, e1, e2, f0, f1, f2. auto.
Qed.
