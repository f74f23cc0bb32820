(** Concrete cases for averages. *)
From Coq Require Import Permutation.
From Verif Require Import Arr Vec SeModel NeighModel NeighSpec NeighReal DataModel DataSpec DataProofs AvgModel AvgSpec AvgBondProofs AvgProofs.
Local Open Scope R_scope.
Ltac veq := unfold comb, vadd, vscale, axis_a, axis_b, axis_c, vx, vy, vz; cbn [fst snd]; repeat match goal with |- (_, _) = (_, _) => apply f_equal2 end; try reflexivity; ring.

(** Two sites one unit apart in a cube of edge ten: with cutoff nine the bonds have lengths 1 and 9. *)
Definition two_bonds : list ((Z * vec) * (Z * vec)) := [((8%Z, (0, 0, 0)), (1%Z, (1, 0, 0))); ((8%Z, (0, 0, 0)), (1%Z, (-9, 0, 0)))].
Lemma vdist_val u v d : 0 <= d -> dist2 u v = d * d -> vdist u v = d.
Proof. intros H E. unfold vdist. rewrite vnorm_norm2. unfold dist2 in E. rewrite E. apply sqrt_square. exact H. Qed.
Lemma vdist_sq u v : vdist u v * vdist u v = dist2 u v.
Proof. unfold vdist, dist2. rewrite <- vnorm_sq. ring. Qed.
Lemma two_bonds_all : all_bonds axis_a axis_b axis_c two_sites 9 8 1 two_bonds.
Proof.
  split.
  - constructor; [|constructor; [intros []|constructor]]. intros [E|[]]. injection E as E. lra.
  - intros [c n]. unfold bond. cbn [fst snd]. split.
    + intros [E|[E|[]]]; injection E as <- <-; (split; [left; reflexivity|]); (split; [reflexivity|]); cbn [fst snd].
      * split; [exists 1%nat, (1%Z, (1, 0, 0)), 0%Z, 0%Z, 0%Z; split; [reflexivity|]; veq|]. split; [reflexivity|].
        rewrite (vdist_val _ _ 1) by (try lra; unfold dist2, norm2, dot, vsub, vx, vy, vz; cbn [fst snd]; ring). lra.
      * split; [exists 1%nat, (1%Z, (1, 0, 0)), (-1)%Z, 0%Z, 0%Z; split; [reflexivity|]; veq|]. split; [reflexivity|].
        rewrite (vdist_val _ _ 9) by (try lra; unfold dist2, norm2, dot, vsub, vx, vy, vz; cbn [fst snd]; ring). lra.
    + intros (Ic & Zc & (m & s & p & q & r & Em & En) & Zn & D0 & D1).
      destruct Ic as [<-|[<-|[]]]; [|discriminate Zc]. cbn [fst snd] in *.
      destruct m as [|[|m]]; cbn in Em; [injection Em as <-; rewrite En in Zn; discriminate Zn|injection Em as <-|destruct m; discriminate Em].
      assert (DD : vdist (snd n) (0, 0, 0) * vdist (snd n) (0, 0, 0) <= 81) by nra. rewrite vdist_sq in DD. rewrite En in DD. cbn [snd] in DD.
      unfold dist2, norm2, dot, vsub, comb, vadd, vscale, axis_a, axis_b, axis_c, vx, vy, vz in DD. cbn [fst snd] in DD.
      assert (DZ : ((1 + 10 * p) * (1 + 10 * p) + 100 * (q * q) + 100 * (r * r) <= 81)%Z).
      { apply le_IZR. rewrite !plus_IZR, !mult_IZR, !plus_IZR, !mult_IZR. cbn. lra. }
      assert (q = 0%Z) by nia. assert (r = 0%Z) by nia. assert (p = 0%Z \/ p = (-1)%Z) as [-> | ->] by nia; subst q r; [left|right; left]; rewrite En; apply f_equal2; [reflexivity| |reflexivity|]; veq.
Qed.
Lemma two_average : average (map bond_length two_bonds) = Some 5.
Proof.
  unfold two_bonds, average, bond_length. cbn [map fst snd length fold_right]. rewrite (vdist_val _ _ 1), (vdist_val _ _ 9) by (try lra; unfold dist2, norm2, dot, vsub, vx, vy, vz; cbn [fst snd]; ring). f_equal. cbn. lra.
Qed.
(** No pair of the asked elements: the mean of nothing. *)
Lemma no_bonds : get_avg_bond_length [([8; 1]%Z, [0; 2], [(0, 0, 0); (2, 0, 0)])] 8 26 = Ok None.
Proof.
  rewrite avg_bond_table; [reflexivity|discriminate|]. constructor; [split; [discriminate|reflexivity]|constructor].
Qed.
Lemma empty_table a1 a2 : get_avg_bond_length [] a1 a2 = Err IndexError.
Proof. reflexivity. Qed.

(** One atom moving one unit per frame. *)
Definition walk : list (list vec) := [[(0, 0, 0)]; [(1, 0, 0)]; [(2, 0, 0)]].
Lemma moves_one x y d : dist2 y x = d -> average (squared_moves [x] [y]) = Some d.
Proof. intros E. unfold squared_moves, average. cbn [combine map fst snd fold_right length]. f_equal. rewrite <- E. unfold vdist. rewrite vnorm_sq. unfold dist2. cbn. field. Qed.
Lemma walk_msd : calc_msd 4 walk = Ok [Some 1; Some 1].
Proof.
  unfold calc_msd, frame_pairs, starmap, walk. cbn [length Nat.sub seq mapM get nth_error bind Z.sub Z.add Z.ltb Z.compare Z.opp Z.pos_sub Pos.pred_double fst snd].
  rewrite !msd_s_ok by reflexivity. cbn [bind]. rewrite (moves_one _ _ 1), (moves_one _ _ 1) by (unfold dist2, norm2, dot, vsub, vx, vy, vz; cbn [fst snd]; ring). reflexivity.
Qed.
Lemma walk_origin : average (squared_moves [(0, 0, 0)] [(2, 0, 0)]) = Some 4.
Proof. apply moves_one. unfold dist2, norm2, dot, vsub, vx, vy, vz; cbn [fst snd]; ring. Qed.
(** An atom crossing the boundary of a cube of edge ten. *)
Lemma wrap_msd : calc_msd_s [(9, 0, 0)] [(1, 0, 0)] = Ok (Some 64) /\ calc_msd_s [(9, 0, 0)] [(11, 0, 0)] = Ok (Some 4).
Proof. rewrite !msd_s_ok by reflexivity. rewrite (moves_one _ _ 64), (moves_one _ _ 4) by (unfold dist2, norm2, dot, vsub, vx, vy, vz; cbn [fst snd]; ring). split; reflexivity. Qed.
(** Frames with different numbers of atoms. *)
Lemma broadcast_msd : exists m, calc_msd_s [(0, 0, 0)] [(1, 0, 0); (3, 0, 0)] = Ok (Some m) /\ m = 5.
Proof.
  unfold calc_msd_s, coords_minus, mean_of, sum_list. cbn [length Nat.eqb bind map fold_right]. eexists. split; [reflexivity|]. unfold norm2, dot, vsub, vx, vy, vz. cbn [fst snd]. simpl INR. field.
Qed.
Lemma mismatch_msd a b : length a <> length b -> length a <> 1%nat -> length b <> 1%nat -> calc_msd_s a b = Err ValueError.
Proof.
  intros H H1 H2. unfold calc_msd_s, coords_minus. destruct (Nat.eqb_spec (length b) (length a)); [congruence|]. destruct b as [|x [|y b]]; cbn in *; try congruence; destruct a as [|u [|w a]]; cbn in *; try congruence; reflexivity.
Qed.

(** Two neighbours of the same element on opposite sides. *)
Lemma opposite : is_angle (1, 0, 0) (-1, 0, 0) 180.
Proof.
  split; [lra|]. assert (E : 180 * (PI / 180) = PI) by field. rewrite E, cos_PI. assert (V : forall x, x * x = 1 -> vnorm (x, 0, 0) = 1).
  { intros x Hx. rewrite vnorm_norm2. unfold norm2, dot, vx, vy, vz. cbn [fst snd]. rewrite Hx. replace (1 + 0 * 0 + 0 * 0) with 1 by ring. apply sqrt_1. }
  rewrite (V 1) by ring. rewrite (V (-1)) by ring. unfold dot, vx, vy, vz. cbn [fst snd]. ring.
Qed.
Lemma xyz_nonzero x : x <> 0 -> (x, 0, 0) <> ((0, 0, 0) : vec).
Proof. intros H E. injection E as E. contradiction. Qed.
Definition line_row : list vec := [(1, 0, 0); (0, 0, 0); (-1, 0, 0); (0, 0, 0)].
Lemma line_entries : real_entries line_row [(1, 0, 0); (-1, 0, 0)].
Proof. constructor; [apply xyz_nonzero; lra|]. constructor. constructor; [apply xyz_nonzero; lra|]. constructor. constructor. Qed.
Lemma line_angle : fst (get_avg_angle true [line_row] [line_row]) = Some 60.
Proof.
  rewrite (same_one_claim _ _ [180] 180 line_entries).
  - f_equal. cbn. field.
  - constructor; [exact opposite|constructor].
  - unfold average. cbn. f_equal. field.
Qed.
Lemma line_cross : fst (get_avg_angle false [[(1, 0, 0)]] [[(0, 0, 0); (-1, 0, 0)]]) = Some 180.
Proof.
  destruct (cross_claim [[(1, 0, 0)]] [[(0, 0, 0); (-1, 0, 0)]] [[(1, 0, 0)]] [[(-1, 0, 0)]]) as [_ H].
  - constructor; [|constructor]. constructor; [apply xyz_nonzero; lra|constructor].
  - constructor; [|constructor]. constructor. constructor; [apply xyz_nonzero; lra|constructor].
  - destruct (H [180]) as [E _]; [constructor; [exact opposite|constructor]|]. rewrite E. cbn [fst]. unfold average. cbn. f_equal. field.
Qed.

(** A perfect tetrahedron. *)
Definition tetrahedron : list vec := [(1, 1, 1); (1, -1, -1); (-1, 1, -1); (-1, -1, 1)].
Lemma tetra_entries : real_entries tetrahedron tetrahedron.
Proof. repeat (constructor; [intros E; injection E as ? ? ?; lra|]). constructor. Qed.
Lemma tetra_cos p : In p (unordered tetrahedron) -> 1 / 3 + cos (ang p * (PI / 180)) = 0.
Proof.
  intros I0. assert (H : fst p <> (0, 0, 0) /\ snd p <> (0, 0, 0) /\ norm2 (fst p) = 3 /\ norm2 (snd p) = 3 /\ dot (fst p) (snd p) = -1).
  { cbn in I0. repeat (destruct I0 as [<-|I0]; [cbn [fst snd]; repeat split; try (intros E; injection E as ? ? ?; lra); unfold norm2, dot, vx, vy, vz; cbn [fst snd]; ring|]). destruct I0. }
  destruct H as (H1 & H2 & N1 & N2 & D). destruct (angle_ok _ _ H1 H2) as [_ E]. fold (ang p) in E. rewrite D, !vnorm_norm2, N1, N2 in E. rewrite sqrt_sqrt in E by lra. lra.
Qed.
Lemma tetra_order : tetrahedral_order (map ang (unordered tetrahedron)) = 1 /\ snd (get_avg_angle true [tetrahedron] [tetrahedron]) = - (5 / 3).
Proof.
  assert (E : tetrahedral_order (map ang (unordered tetrahedron)) = 1).
  { unfold tetrahedral_order. rewrite map_map. change (fold_right Rplus 0) with sum_list. rewrite (sum_const _ 0). 2:{ intros p I0. cbn beta. rewrite (tetra_cos p I0). ring. } ring. }
  split; [exact E|]. assert (F : Forall2 real_entries [tetrahedron] [tetrahedron]) by (constructor; [exact tetra_entries|constructor]).
  destruct (angle_same _ _ F) as [_ X]. rewrite X. cbn [flat_map concat]. rewrite !app_nil_r. rewrite E. cbn. field.
Qed.

(** Two atoms next to each other across the boundary of a cube of edge ten. *)
Lemma pair_wrap : get_frames_pair_bond [[(0, 0, 0); (9, 0, 0)]; [(0, 0, 0); (-1, 0, 0)]] 0 1 = Ok [9; 1].
Proof.
  destruct (pair_bond_ok [[(0, 0, 0); (9, 0, 0)]; [(0, 0, 0); (-1, 0, 0)]] 0 1) as (l & E & L & K).
  { intros f [<-|[<-|[]]]; cbn; lia. }
  rewrite E. f_equal. specialize (K 0%nat _ _ _ eq_refl eq_refl eq_refl) as K0. specialize (K 1%nat _ _ _ eq_refl eq_refl eq_refl) as K1.
  rewrite (vdist_val _ _ 9) in K0 by (try lra; unfold dist2, norm2, dot, vsub, vx, vy, vz; cbn [fst snd]; ring). rewrite (vdist_val _ _ 1) in K1 by (try lra; unfold dist2, norm2, dot, vsub, vx, vy, vz; cbn [fst snd]; ring).
  destruct l as [|a [|b [|c l]]]; cbn in *; try discriminate. congruence.
Qed.
Lemma nearby_images : image_of_site axis_a axis_b axis_c [(1%Z, (9, 0, 0))] (1%Z, (-1, 0, 0)) 0.
Proof. exists (1%Z, (9, 0, 0)), (-1)%Z, 0%Z, 0%Z. split; [reflexivity|]. veq. Qed.
Lemma pair_sym frames i j : get_frames_pair_bond frames i j = get_frames_pair_bond frames j i \/ exists e, get_frames_pair_bond frames i j = Err e.
Proof.
  unfold get_frames_pair_bond. induction frames as [|f frames IH]; [left; reflexivity|]. cbn [mapM].
  destruct (pyget f i) as [p|e1]; cbn [bind]; [|right; eexists; reflexivity]. destruct (pyget f j) as [q|e2]; cbn [bind]; [|right; eexists; reflexivity].
  destruct IH as [->|(e & ->)]; [left|right; exists e; reflexivity].
  assert (vnorm (vsub q p) = vnorm (vsub p q)) as ->; [|reflexivity]. rewrite !vnorm_norm2. f_equal. destruct p as [[? ?] ?], q as [[? ?] ?]. unfold norm2, dot, vsub, vx, vy, vz. cbn [fst snd]. ring.
Qed.
Lemma wrap_image : exists i j k : Z, (1, 0, 0) = vadd (11, 0, 0) (comb axis_a axis_b axis_c (IZR i) (IZR j) (IZR k)).
Proof. exists (-1)%Z, 0%Z, 0%Z. veq. Qed.
Lemma centroid_case : is_centroid [(0, 0, 0); (2, 0, 0)] (1, 0, 0).
Proof. unfold is_centroid. cbn [map fold_right]. unfold vsub. veq. Qed.
Lemma tetra_true angles : Forall2 (fun p a => is_angle (fst p) (snd p) a) (unordered tetrahedron) angles -> tetrahedral_order angles = 1.
Proof.
  intros F. rewrite <- (proj1 tetra_order). f_equal. symmetry. apply angles_are; [|exact F].
  assert (F1 : Forall2 real_entries [tetrahedron] [tetrahedron]) by (constructor; [exact tetra_entries|constructor]). assert (Z0 := same_nonzero _ _ F1). cbn [flat_map] in Z0. rewrite app_nil_r in Z0. exact Z0.
Qed.
Lemma pair_bond_refers frames i j : (forall f, In f frames -> (- Z.of_nat (length f) <= i < Z.of_nat (length f))%Z /\ (- Z.of_nat (length f) <= j < Z.of_nat (length f))%Z) ->
  exists l, get_frames_pair_bond frames i j = Ok l /\ length l = length frames /\
  forall k f p q, nth_error frames k = Some f -> refers f i p -> refers f j q -> nth_error l k = Some (vdist q p).
Proof.
  intros H. destruct (pair_bond_ok frames i j H) as (l & E & L & K). exists l. split; [exact E|]. split; [exact L|]. intros k f p q Ef Hp Hq. apply (K k f); [exact Ef|apply pyget_refers; exact Hp|apply pyget_refers; exact Hq].
Qed.
Lemma pair_sym_ok frames i j l : get_frames_pair_bond frames i j = Ok l -> get_frames_pair_bond frames j i = Ok l.
Proof. intros E. destruct (pair_sym frames i j) as [X|(e & X)]; rewrite E in X; [symmetry; exact X|discriminate]. Qed.
