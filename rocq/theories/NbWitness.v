From Verif Require Import Vec NbModel NbSpec NbMlffModel NbMlffSpec StructProofs TextProofs NbListProofs NbSearchProofs NbGeomProofs NbProofs NbDupProofs NbMlffProofs NbGlue.
Open Scope Z_scope.

Lemma in_two_split' {A} (l : list A) a b : a <> b -> In a l -> In b l ->
  exists l1 l2 l3, l = l1 ++ a :: l2 ++ b :: l3 \/ l = l1 ++ b :: l2 ++ a :: l3.
Proof.
  intros Hne Ha Hb. apply in_split in Ha as [u [v ->]]. apply in_app_iff in Hb as [Hb|[Hb|Hb]].
  - apply in_split in Hb as [p [q ->]]. exists p, q, v. right. rewrite <- app_assoc. reflexivity.
  - contradiction.
  - apply in_split in Hb as [p [q ->]]. exists u, p, q. left. reflexivity.
Qed.

(** A bin of the x axis reached twice. *)
Lemma search_dup0 rcut g pos centre l m q w1 w2 n0 n1 n2 d : (0 < rcut)%R -> sizes_pos (g_size g) ->
  all_in_box g pos -> in_box (g_num g) (bin_xyz g centre) -> search rcut g pos centre = Ok l ->
  arr_get pos m = Ok q -> (1 / 1000 < dist2 q centre < rcut * rcut)%R ->
  g_pbc g = (true, w1, w2) -> g_num g = (n0, n1, n2) -> d = n0 \/ d = - n0 ->
  (let i := fst (fst (bin_xyz g q)) - fst (fst (bin_xyz g centre)) + d in
   - axis_ext rcut (vx (g_size g)) <= i <= axis_ext rcut (vx (g_size g))) -> ~ NoDup l.
Proof.
  intros Hr [S0 [S1 S2]] Hb Hc H Hq Hd Hp Hn Hdn Hi.
  pose proof (arr_get_In _ _ _ Hq) as Hin.
  assert (Hbq : in_box (g_num g) (bin_xyz g q)) by (unfold all_in_box in Hb; rewrite Forall_forall in Hb; auto).
  assert (D : (vx (vsub q centre) * vx (vsub q centre) + vy (vsub q centre) * vy (vsub q centre) + vz (vsub q centre) * vz (vsub q centre) < rcut * rcut)%R) by exact (proj2 Hd).
  apply abs_le_dist in D as [D0 [D1 D2]]; [|exact Hr]. cbn [vsub vx vy vz fst snd] in D0, D1, D2.
  fold (vx q) (vy q) (vz q) (vx centre) (vy centre) (vz centre) in D0, D1, D2.
  pose proof (axis_reach rcut (vx (g_size g)) (vx (g_min g)) _ _ S0 D0) as R0.
  pose proof (axis_reach rcut (vy (g_size g)) (vy (g_min g)) _ _ S1 D1) as R1.
  pose proof (axis_reach rcut (vz (g_size g)) (vz (g_min g)) _ _ S2 D2) as R2.
  rewrite search_ok in H by exact Hb.
  apply (f_equal (fun r => match r with Ok l => l | Err _ => [] end)) in H. cbv beta iota in H. subst l.
  rewrite neigh_bins_eq, flat_map_map. unfold ext3.
  unfold bin_xyz in *. cbn [fst snd] in Hi. rewrite Hn, Hp in *. cbv zeta in Hi.
  set (q0 := axis_bin (vx q) _ _) in *. set (q1 := axis_bin (vy q) _ _) in *. set (q2 := axis_bin (vz q) _ _) in *.
  set (b0 := axis_bin (vx centre) _ _) in *. set (b1 := axis_bin (vy centre) _ _) in *. set (b2 := axis_bin (vz centre) _ _) in *.
  destruct Hbq as [Q0 [Q1 Q2]]. destruct Hc as [C0 [C1 C2]].
  set (e0 := axis_ext rcut (vx _)) in *. set (e1 := axis_ext rcut (vy _)) in *. set (e2 := axis_ext rcut (vz _)) in *.
  assert (W : forall i, i = q0 - b0 \/ i = q0 - b0 + d -> axis_wrap true n0 (b0 + i) = q0).
  { intros i E. unfold axis_wrap. destruct E as [->| ->]; destruct Hdn as [->| ->].
    - replace (b0 + (q0 - b0) + n0) with (q0 + 1 * n0) by lia. rewrite Z.rem_mod_nonneg, Z.mod_add, Z.mod_small by lia. reflexivity.
    - replace (b0 + (q0 - b0) + n0) with (q0 + 1 * n0) by lia. rewrite Z.rem_mod_nonneg, Z.mod_add, Z.mod_small by lia. reflexivity.
    - replace (b0 + (q0 - b0 + n0) + n0) with (q0 + 2 * n0) by lia. rewrite Z.rem_mod_nonneg, Z.mod_add, Z.mod_small by lia. reflexivity.
    - replace (b0 + (q0 - b0 + - n0) + n0) with q0 by lia. rewrite Z.rem_mod_nonneg, Z.mod_small by lia. reflexivity. }
  assert (BX : forall i, i = q0 - b0 \/ i = q0 - b0 + d -> box_of (n0, n1, n2) (true, w1, w2) (b0, b1, b2) (i, q1 - b1, q2 - b2) = (q0, q1, q2)).
  { intros i E. cbn [box_of]. rewrite (W i E). replace (b1 + (q1 - b1)) with q1 by lia. replace (b2 + (q2 - b2)) with q2 by lia. rewrite !wrap_id by assumption. reflexivity. }
  match goal with |- ~ NoDup (flat_map ?F _) => set (G := F) end.
  assert (HG : forall i, i = q0 - b0 \/ i = q0 - b0 + d -> In m (G (i, q1 - b1, q2 - b2))).
  { intros i E. unfold G. rewrite (BX i E). unfold cell_of.
    assert (B : in_boxb (n0, n1, n2) (q0, q1, q2) = true) by (apply in_boxb_iff; cbn; auto). rewrite B. apply hits_in.
    apply arr_get_nth in Hq as K. destruct K as [K1 K2].
    pose proof (flat_range (n0, n1, n2) (q0, q1, q2) ltac:(cbn; auto)) as FR.
    split; [lia|]. split; [exact K1|]. split; [|exists q; auto]. rewrite nth_error_map, K2. cbn [option_map]. fold q0 q1 q2. reflexivity. }
  destruct (in_two_split' (ext_grid (e0, e1, e2)) (q0 - b0, q1 - b1, q2 - b2) (q0 - b0 + d, q1 - b1, q2 - b2)) as [l1 [l2 [l3 [->| ->]]]].
  - intros E. injection E as E. lia.
  - cbn [ext_grid]. apply grid3_in. rewrite !zrange_in. auto.
  - cbn [ext_grid]. apply grid3_in. rewrite !zrange_in. auto.
  - eapply flat_map_dup; apply HG; auto.
  - eapply flat_map_dup; apply HG; auto.
Qed.

(** * A two-atom cell *)
Definition two_cell (A B C : vec) (p q : vec) : cell :=
  {| bA := A; bB := B; bC := C; numbers := [1; 8]; coords := [p; q]; origin := (0, 0, 0)%R |}.

(** Unit cube, atoms at x = 1/2 and x = 2/5. *)
Definition unit_cell : cell :=
  two_cell (1, 0, 0)%R (0, 1, 0)%R (0, 0, 1)%R ((1 / 2)%R, 0%R, 0%R) ((2 / 5)%R, 0%R, 0%R).

Lemma unit_proper : proper unit_cell.
Proof. split; [reflexivity|]. unfold unit_cell, two_cell. cbn [bA bB bC]. intros H. vec_unfold. lra. Qed.
Lemma unit_wrapped : wrapped unit_cell.
Proof.
  repeat constructor.
  - exists (1 / 2)%R, 0%R, 0%R. repeat split; try lra. unfold unit_cell, two_cell. cbn [bA bB bC]. apply vec_eq; vec_unfold; lra.
  - exists (2 / 5)%R, 0%R, 0%R. repeat split; try lra. unfold unit_cell, two_cell. cbn [bA bB bC]. apply vec_eq; vec_unfold; lra.
Qed.
Lemma unit_faces : faces_positive unit_cell.
Proof. unfold faces_positive, unit_cell, two_cell. cbn. lra. Qed.

Lemma interplanar_unit : interplanar unit_cell = (1, 1, 1)%R.
Proof.
  unfold interplanar. rewrite !dot_normalize. unfold unit_cell, two_cell. cbn [bA bB bC]. vec_unfold.
  assert (S1 : forall x, x = 1%R -> sqrt x = 1%R) by (intros x ->; apply sqrt_1).
  rewrite !S1 by ring.
  f_equal; [f_equal|]; unfold Rabs; destruct (Rcase_abs _) as [H|H]; try lra.
Qed.

Lemma unit_scalings : scalings 1 (true, true, true) unit_cell = (3, 3, 3).
Proof.
  unfold scalings. rewrite interplanar_unit. cbn [vx vy vz fst snd]. unfold scaling1.
  rewrite (ceilZ_unique (1 / 1) 1) by lra. reflexivity.
Qed.

Lemma dup_custom_bins : exists sup lists l, neighbor_lists 1 (4/5, 4/5, 4/5)%R (true, true, true) unit_cell = Ok (sup, lists) /\
  nth_error lists 0 = Some l /\ ~ NoDup l.
Proof.
  assert (Hs : positive3 (4/5, 4/5, 4/5)%R) by (unfold positive3; cbn; lra).
  destruct (neighbor_lists_spec 1 (4/5, 4/5, 4/5)%R (true, true, true) unit_cell Rlt_0_1 Hs unit_proper unit_wrapped
     (faces_fit_scaled 1 (4/5, 4/5, 4/5)%R (true, true, true) unit_cell Rlt_0_1 unit_proper unit_faces)) as [sup [lists [E [_ [HS [Hb HI]]]]]].
  destruct (HI 0%nat _ eq_refl) as [l [Hl [Hin [HSr [_ Hcomp]]]]]. exists sup, lists, l. split; [exact E|]. split; [exact Hl|].
  assert (N : is_neighbour 1 (true, true, true) unit_cell 0 1 (1, 0, 0)).
  { exists ((1 / 2)%R, 0%R, 0%R), ((2 / 5)%R, 0%R, 0%R). split; [reflexivity|]. split; [reflexivity|]. split; [cbn; repeat split; discriminate|].
    unfold lattice_vec, unit_cell, two_cell. cbn [bA bB bC]. vec_unfold. lra. }
  destruct (Hcomp 1%nat (1, 0, 0) _ N eq_refl) as [m [Hm [Hm0 [_ Hq]]]].
  rewrite unit_scalings in HS. cbv iota in HS. rewrite make_supercell_ok in HS by (try lia; reflexivity).
  apply (f_equal (fun r => match r with Ok l => l | Err _ => sup end)) in HS. cbv beta iota in HS.
  destruct N as [xi [xj [Exi [Exj [_ Hd]]]]]. cbn in Exi, Exj. injection Exi as <-. injection Exj as <-.
  assert (Gmin : vx (min_limit sup) = (-1)%R).
  { unfold min_limit. cbn [vx fst]. fold vx. rewrite (min_along_eq vx sup linear_vx). rewrite <- HS. cbn [origin bA bB bC].
    cbn. vec_unfold. unfold Rmin. repeat destruct (Rle_dec _ _); lra. }
  assert (Gnum : axis_num (vx (projected_lengths sup)) (4 / 5) = 4).
  { rewrite <- HS. cbn. vec_unfold. unfold axis_num. apply ceilZ_unique. unfold Rabs. repeat destruct (Rcase_abs _); lra. }
  assert (Ge : axis_ext 1 (4 / 5) = 2) by (unfold axis_ext; apply ceilZ_unique; lra).
  assert (Gb : axis_bin (1 / 2) (-1) (4 / 5) = 1) by (apply floorZ_unique; lra).
  assert (Gq : forall x, x = (7 / 5)%R -> axis_bin x (-1) (4 / 5) = 3) by (intros x ->; apply floorZ_unique; lra).
  set (g := make_grid (4/5, 4/5, 4/5)%R (true, true, true) sup) in *.
  assert (Hsz : sizes_pos (g_size g)) by exact Hs.
  eapply (search_dup0 1 g (coords sup) _ l m _ true true (axis_num (vx (projected_lengths sup)) (4 / 5)) _ _ (- axis_num (vx (projected_lengths sup)) (4 / 5)) Rlt_0_1 Hsz Hb);
    [|exact HSr| |exact Hd|reflexivity|reflexivity|right; reflexivity|].
  - unfold all_in_box in Hb. rewrite Forall_forall in Hb. apply Hb. exact Hin.
  - apply arr_get_nth. split; [exact Hm0|exact Hq].
  - unfold g, bin_xyz. cbn [fst snd make_grid g_min g_size vx]. fold (vx (min_limit sup)). rewrite Gmin.
    cbn [vx vy vz fst snd]. fold (vx (projected_lengths sup)). rewrite Gnum, Ge, Gb. rewrite Gq; [lia|].
    unfold lattice_vec, unit_cell, two_cell. cbn [bA bB bC]. vec_unfold. lra.
Qed.

(** * Default bins, periodic along one lattice vector that is not along its axis *)
Definition swapped_cell : cell :=
  two_cell (0, 10, 0)%R (1, 0, 0)%R (0, 0, 10)%R (0, 0, 0)%R (0, 1, 0)%R.

Lemma swapped_proper : proper swapped_cell.
Proof. split; [reflexivity|]. unfold swapped_cell, two_cell. cbn [bA bB bC]. intros H. vec_unfold. lra. Qed.
Lemma swapped_wrapped : wrapped swapped_cell.
Proof.
  repeat constructor.
  - exists 0%R, 0%R, 0%R. repeat split; try lra. unfold swapped_cell, two_cell. cbn [bA bB bC]. apply vec_eq; vec_unfold; lra.
  - exists (1 / 10)%R, 0%R, 0%R. repeat split; try lra. unfold swapped_cell, two_cell. cbn [bA bB bC]. apply vec_eq; vec_unfold; lra.
Qed.
Lemma swapped_faces : faces_positive swapped_cell.
Proof. unfold faces_positive, swapped_cell, two_cell. cbn. lra. Qed.

Lemma dup_default_bins : exists sup lists l, neighbor_lists_default 4 (true, false, false) swapped_cell = Ok (sup, lists) /\
  nth_error lists 0 = Some l /\ ~ NoDup l.
Proof.
  assert (Hr : (0 < 4)%R) by lra. unfold neighbor_lists_default. fold (half_bins 4).
  destruct (neighbor_lists_spec 4 (half_bins 4) (true, false, false) swapped_cell Hr (half_bins_pos 4 Hr) swapped_proper swapped_wrapped
     (faces_fit_scaled 4 (half_bins 4) (true, false, false) swapped_cell Hr swapped_proper swapped_faces)) as [sup [lists [E [_ [HS [Hb HI]]]]]].
  destruct (HI 0%nat _ eq_refl) as [l [Hl [Hin [HSr [_ Hcomp]]]]]. exists sup, lists, l. split; [exact E|]. split; [exact Hl|].
  assert (N : is_neighbour 4 (true, false, false) swapped_cell 0 1 (0, 0, 0)).
  { exists (0, 0, 0)%R, (0, 1, 0)%R. split; [reflexivity|]. split; [reflexivity|]. split; [cbn; auto|].
    unfold lattice_vec, swapped_cell, two_cell. cbn [bA bB bC]. vec_unfold. lra. }
  destruct (Hcomp 1%nat (0, 0, 0) _ N eq_refl) as [m [Hm [Hm0 [_ Hq]]]].
  destruct N as [xi [xj [Exi [Exj [_ Hd]]]]]. cbn in Exi, Exj. injection Exi as <-. injection Exj as <-.
  assert (Gnum : axis_num (vx (projected_lengths sup)) (4 / 2) = 1).
  { unfold scalings in HS.
    destruct (interplanar_pos swapped_cell (proj2 swapped_proper)) as [D0 _]. destruct (scaling1_spec 4 true _ Hr D0) as [P0 _].
    rewrite make_supercell_ok in HS by (try exact P0; try (unfold scaling1; lia); reflexivity).
    apply (f_equal (fun r => match r with Ok l => l | Err _ => sup end)) in HS. cbv beta iota in HS. rewrite <- HS.
    unfold swapped_cell, two_cell, projected_lengths. cbn [bA bB bC scaling1]. vec_unfold. unfold axis_num. apply ceilZ_unique.
    rewrite !Rmult_0_r, !Rmult_1_r, Rabs_R0, Rabs_R1. lra. }
  set (g := make_grid (half_bins 4) (true, false, false) sup) in *.
  assert (Hsz : sizes_pos (g_size g)) by exact (half_bins_pos 4 Hr).
  assert (Hc : in_box (g_num g) (bin_xyz g (0, 0, 0)%R)).
  { unfold all_in_box in Hb. rewrite Forall_forall in Hb. apply Hb. exact Hin. }
  assert (Hqb : in_box (g_num g) (bin_xyz g (vadd (0, 1, 0)%R (lattice_vec swapped_cell (0, 0, 0))))).
  { unfold all_in_box in Hb. rewrite Forall_forall in Hb. apply Hb. eapply nth_error_In, Hq. }
  eapply (search_dup0 4 g (coords sup) _ l m _ false false (axis_num (vx (projected_lengths sup)) (4 / 2)) _ _ (axis_num (vx (projected_lengths sup)) (4 / 2)) Hr Hsz Hb);
    [exact Hc|exact HSr| |exact Hd|reflexivity|reflexivity|left; reflexivity|].
  - apply arr_get_nth. split; [exact Hm0|exact Hq].
  - destruct Hc as [C0 _]. destruct Hqb as [Q0 _]. cbv zeta. rewrite Gnum.
    change (vx (g_size g)) with (4 / 2)%R. rewrite (ext_half 4 Hr).
    unfold bin_xyz. cbn [fst snd]. unfold half_bins in C0, Q0. cbn [g make_grid g_num g_min g_size vx fst snd] in C0, Q0 |- *.
    fold (vx (projected_lengths sup)) in C0, Q0. rewrite Gnum in C0, Q0. lia.
Qed.

(** * Without periodicity *)
Lemma free_lists rcut sizes c : length (numbers c) = length (coords c) ->
  exists sup, make_supercell 1 1 1 c = Ok sup /\ coords sup = coords c /\ origin sup = (0, 0, 0)%R /\
    bA sup = bA c /\ bB sup = bB c /\ bC sup = bC c /\
    neighbor_lists rcut sizes (false, false, false) c =
    bind (mapM (search rcut (make_grid sizes (false, false, false) sup) (coords c)) (coords c)) (fun lists => Ok (sup, lists)).
Proof.
  intros Hn. rewrite neighbor_lists_unfold. cbv zeta. cbn [scaling1].
  rewrite make_supercell_ok by (try lia; exact Hn). eexists. split; [reflexivity|]. cbn [bind coords origin bA bB bC].
  change (shifts3 1 1 1) with [(0, 0, 0)].
  assert (EC : copies c [(0, 0, 0)] = coords c).
  { unfold copies. cbn [flat_map]. rewrite app_nil_r. rewrite <- (map_id (coords c)) at 2. apply map_ext. intros x. rewrite shift_lattice. apply vadd_lattice0. }
  rewrite EC. split; [reflexivity|].
  change (fst (scale_range 1)) with 0.
  split; [generalize (bA c) (bB c) (bC c); intros; apply vec_eq; vec_ring|].
  split; [generalize (bA c); intros; apply vec_eq; vec_ring|]. split; [generalize (bB c); intros; apply vec_eq; vec_ring|].
  split; [generalize (bC c); intros; apply vec_eq; vec_ring|].
  f_equal. change (prim_cell_idx 1 1 1) with 0. 
  assert (G : forall B (F : vec -> result B) (all : list vec) r k, (forall i x, nth_error r i = Some x -> nth_error all (k + i) = Some x) ->
    mapM (fun i => bind (arr_get all (Z.of_nat i + 0 * num_atoms c)) F) (seq k (length r)) = mapM F r).
  { clear. intros B F all r. induction r as [|x r IH]; intros k H; [reflexivity|]. cbn [length seq mapM].
    rewrite Z.mul_0_l, Z.add_0_r, arr_get_nat. unfold get. rewrite <- (Nat.add_0_r k) at 1. rewrite (H 0%nat x eq_refl). cbn [bind].
    destruct (F x); [|reflexivity]. cbn [bind]. rewrite IH; [reflexivity|]. intros i y Hy. rewrite <- (H (S i) y Hy). f_equal. lia. }
  apply G. intros i x Hx. exact Hx.
Qed.

(** A lattice whose x components are all negative or zero. *)
Definition negative_cell : cell :=
  two_cell (-4, 0, 0)%R (0, 4, 0)%R (0, 0, 4)%R (0, 0, 0)%R (-1, 0, 0)%R.

Lemma negative_proper : proper negative_cell.
Proof. split; [reflexivity|]. unfold negative_cell, two_cell. cbn [bA bB bC]. intros H. vec_unfold. lra. Qed.
Lemma negative_wrapped : wrapped negative_cell.
Proof.
  repeat constructor.
  - exists 0%R, 0%R, 0%R. repeat split; try lra. unfold negative_cell, two_cell. cbn [bA bB bC]. apply vec_eq; vec_unfold; lra.
  - exists (1 / 4)%R, 0%R, 0%R. repeat split; try lra. unfold negative_cell, two_cell. cbn [bA bB bC]. apply vec_eq; vec_unfold; lra.
Qed.

Lemma missed_neighbour : exists sup l0 l1,
  neighbor_lists_default 2 (false, false, false) negative_cell = Ok (sup, [l0; l1]) /\
  is_neighbour 2 (false, false, false) negative_cell 1 0 (0, 0, 0) /\ ~ In 0 l1.
Proof.
  unfold neighbor_lists_default. destruct (free_lists 2 (2 / 2, 2 / 2, 2 / 2)%R negative_cell eq_refl) as [sup [_ [_ [EO [EA [EB [EC ->]]]]]]].
  set (g := make_grid (2 / 2, 2 / 2, 2 / 2)%R (false, false, false) sup).
  assert (Rm : forall a b, (b <= a)%R -> Rmin a b = b) by (intros a b H; unfold Rmin; destruct (Rle_dec a b); lra).
  assert (Rm' : forall a b, (a <= b)%R -> Rmin a b = a) by (intros a b H; unfold Rmin; destruct (Rle_dec a b); lra).
  assert (Gmin : g_min g = (-4, 0, 0)%R).
  { unfold g, make_grid, min_limit. cbn [g_min]. rewrite (min_along_eq vx sup linear_vx), (min_along_eq vy sup linear_vy), (min_along_eq vz sup linear_vz).
    rewrite EO, EA, EB, EC. unfold negative_cell, two_cell. cbn [bA bB bC]. unfold vx, vy, vz. cbn [fst snd].
    rewrite (Rm 0 (-4))%R, (Rm' 0 0)%R, (Rm' 0 4)%R by lra. f_equal; [f_equal|]; lra. }
  assert (Gnum : g_num g = (4, 4, 4)).
  { unfold g, make_grid, projected_lengths. cbn [g_num]. rewrite EA, EB, EC. unfold negative_cell, two_cell. cbn [bA bB bC]. unfold vx, vy, vz. cbn [fst snd].
    unfold axis_num. rewrite !(ceilZ_unique _ 4); [reflexivity|..]; unfold Rabs; repeat destruct (Rcase_abs _); lra. }
  assert (B0 : bin_xyz g (0, 0, 0)%R = (4, 0, 0)).
  { unfold bin_xyz. rewrite Gmin. unfold g, make_grid. cbn [g_size]. unfold vx, vy, vz, axis_bin. cbn [fst snd].
    rewrite (floorZ_unique _ 4) by lra. rewrite (floorZ_unique _ 0) by lra. reflexivity. }
  assert (B1 : bin_xyz g (-1, 0, 0)%R = (3, 0, 0)).
  { unfold bin_xyz. rewrite Gmin. unfold g, make_grid. cbn [g_size]. unfold vx, vy, vz, axis_bin. cbn [fst snd].
    rewrite (floorZ_unique _ 3) by lra. rewrite (floorZ_unique _ 0) by lra. reflexivity. }
  assert (Hflat : Forall (fun p => 0 <= flat (g_num g) (bin_xyz g p) < num_bins (g_num g)) (coords negative_cell)).
  { unfold negative_cell, two_cell. cbn [coords]. repeat constructor; rewrite ?B0, ?B1, Gnum; cbn; lia. }
  change (coords negative_cell) with [(0, 0, 0)%R; (-1, 0, 0)%R] at 2. cbn [mapM].
  rewrite !(search_ok_flat 2 g _ _ Hflat). cbn [bind]. eexists. eexists. eexists. split; [reflexivity|]. split.
  - exists (-1, 0, 0)%R, (0, 0, 0)%R. split; [reflexivity|]. split; [reflexivity|]. split; [cbn; auto|].
    unfold lattice_vec, negative_cell, two_cell. cbn [bA bB bC]. vec_unfold. lra.
  - intros H. apply in_flat_map in H as [b [Hb Hh]]. apply hits_in in Hh as [Hne [_ [Hn _]]].
    change (coords negative_cell) with [(0, 0, 0)%R; (-1, 0, 0)%R] in Hn. cbn [map Z.to_nat nth_error] in Hn.
    apply (f_equal (fun o => match o with Some x => x | None => 0 end)) in Hn. cbv beta iota in Hn.
    rewrite B0, Gnum in Hn. cbn in Hn. subst b.
    rewrite neigh_bins_eq in Hb. apply in_map_iff in Hb as [[[i j] k] [E Ht]]. rewrite B1, Gnum in E.
    unfold g in E. cbn [make_grid g_pbc box_of axis_wrap] in E. unfold cell_of in E.
    destruct (in_boxb (4, 4, 4) (3 + i, 0 + j, 0 + k)) eqn:Bx; [|discriminate]. apply in_boxb_iff in Bx. cbn [in_box] in Bx.
    unfold ext3, g in Ht. cbn [make_grid g_size] in Ht. unfold vx, vy, vz in Ht. cbn [fst snd] in Ht. rewrite (ext_half 2) in Ht by lra.
    cbn [ext_grid] in Ht. apply grid3_in in Ht. rewrite !zrange_in in Ht. cbn [flat] in E. lia.
Qed.

(** An atom outside the unit cell: fractional coordinate -1/8. *)
Definition outside_cell : cell :=
  two_cell (4, 0, 0)%R (0, 4, 0)%R (0, 0, 4)%R (- (1 / 2), 0, 0)%R (1, 0, 0)%R.
Lemma outside_fails : neighbor_lists_default 2 (false, false, false) outside_cell = Err IndexError.
Proof.
  unfold neighbor_lists_default. destruct (free_lists 2 (2 / 2, 2 / 2, 2 / 2)%R outside_cell eq_refl) as [sup [_ [_ [EO [EA [EB [EC ->]]]]]]].
  set (g := make_grid (2 / 2, 2 / 2, 2 / 2)%R (false, false, false) sup).
  assert (Rm' : forall a b, (a <= b)%R -> Rmin a b = a) by (intros a b H; unfold Rmin; destruct (Rle_dec a b); lra).
  assert (Gmin : g_min g = (0, 0, 0)%R).
  { unfold g, make_grid, min_limit. cbn [g_min]. rewrite (min_along_eq vx sup linear_vx), (min_along_eq vy sup linear_vy), (min_along_eq vz sup linear_vz).
    rewrite EO, EA, EB, EC. unfold outside_cell, two_cell. cbn [bA bB bC]. unfold vx, vy, vz. cbn [fst snd].
    rewrite (Rm' 0 0)%R, (Rm' 0 4)%R by lra. f_equal; [f_equal|]; lra. }
  assert (B0 : bin_xyz g (- (1 / 2), 0, 0)%R = (-1, 0, 0)).
  { unfold bin_xyz. rewrite Gmin. unfold g, make_grid. cbn [g_size]. unfold vx, vy, vz, axis_bin. cbn [fst snd].
    rewrite (floorZ_unique _ (-1)) by lra. rewrite (floorZ_unique _ 0) by lra. reflexivity. }
  change (coords outside_cell) with [(- (1 / 2), 0, 0)%R; (1, 0, 0)%R]. cbn [mapM].
  rewrite search_bad; [reflexivity|]. intros H. apply Forall_inv in H. rewrite B0 in H.
  destruct (g_num g) as [[n0 n1] n2]. cbn in H. lia.
Qed.

(** * Atoms close together *)
Definition close_cell : cell :=
  two_cell (4, 0, 0)%R (0, 4, 0)%R (0, 0, 4)%R (1, 1, 1)%R (1 + 3 / 100, 1, 1)%R.
Lemma close_proper : proper close_cell.
Proof. split; [reflexivity|]. unfold close_cell, two_cell. cbn [bA bB bC]. intros H. vec_unfold. lra. Qed.
Lemma close_wrapped : wrapped close_cell.
Proof.
  repeat constructor.
  - exists (1 / 4)%R, (1 / 4)%R, (1 / 4)%R. repeat split; try lra. unfold close_cell, two_cell. cbn [bA bB bC]. apply vec_eq; vec_unfold; lra.
  - exists (103 / 400)%R, (1 / 4)%R, (1 / 4)%R. repeat split; try lra. unfold close_cell, two_cell. cbn [bA bB bC]. apply vec_eq; vec_unfold; lra.
Qed.
Lemma close_faces : faces_positive close_cell.
Proof. unfold faces_positive, close_cell, two_cell. cbn. lra. Qed.
Lemma close_dropped : exists sup, neighbor_lists_default 2 (false, false, false) close_cell = Ok (sup, [[]; []]).
Proof.
  assert (Hr : (0 < 2)%R) by lra. unfold neighbor_lists_default. fold (half_bins 2).
  destruct (neighbor_lists_spec 2 (half_bins 2) (false, false, false) close_cell Hr (half_bins_pos 2 Hr) close_proper close_wrapped
     (faces_fit_scaled 2 (half_bins 2) (false, false, false) close_cell Hr close_proper close_faces)) as [sup [lists [E [Hlen [HS [Hb HI]]]]]].
  assert (K : forall i j, ~ is_neighbour 2 (false, false, false) close_cell i j (0, 0, 0)).
  { intros i j [xi [xj [Hi [Hj [_ Hd]]]]]. rewrite vadd_lattice0 in Hd.
    assert (Ci : xi = (1, 1, 1)%R \/ xi = (1 + 3 / 100, 1, 1)%R) by (destruct i as [|[|i]]; cbn in Hi; [injection Hi as <-; auto..|destruct i; discriminate]).
    assert (Cj : xj = (1, 1, 1)%R \/ xj = (1 + 3 / 100, 1, 1)%R) by (destruct j as [|[|j]]; cbn in Hj; [injection Hj as <-; auto..|destruct j; discriminate]).
    destruct Ci as [->| ->], Cj as [->| ->]; vec_unfold; lra. }
  assert (Z : forall i l, nth_error lists i = Some l -> l = []).
  { intros i l Hl. assert (Hi : (i < 2)%nat) by (change 2%nat with (length (coords close_cell)); rewrite <- Hlen; apply nth_error_Some; congruence).
    destruct (nth_error (coords close_cell) i) as [xi|] eqn:Ex; [|apply nth_error_None in Ex; cbn in Ex; lia].
    destruct (HI i xi Ex) as [l' [Hl' [_ [_ [Hsound _]]]]]. rewrite Hl in Hl'. injection Hl' as <-.
    destruct l as [|m r]; [reflexivity|]. exfalso. destruct (Hsound m (or_introl eq_refl)) as [_ [_ [j [t [_ [Hn _]]]]]].
    pose proof Hn as [x [y [_ [_ [Ha _]]]]]. destruct t as [[t0 t1] t2]. cbn [allowed] in Ha. destruct Ha as [A0 [A1 A2]].
    rewrite (A0 eq_refl), (A1 eq_refl), (A2 eq_refl) in Hn. exact (K _ _ Hn). }
  cbn in Hlen. destruct lists as [|a [|b [|]]]; try discriminate.
  rewrite (Z 0%nat a eq_refl), (Z 1%nat b eq_refl) in E. exists sup. exact E.
Qed.

(** * Even scalings *)
Definition one_cell : cell :=
  {| bA := (1, 0, 0)%R; bB := (0, 1, 0)%R; bC := (0, 0, 1)%R; numbers := [1]; coords := [(0, 0, 0)%R]; origin := (0, 0, 0)%R |}.
Lemma even_scaling_wrong : exists sup p, make_supercell 3 2 1 one_cell = Ok sup /\ owned_atom_idxs 3 2 1 1 = [1] /\
  arr_get (coords sup) 1 = Ok p /\ p <> (0, 0, 0)%R /\ In (0, 0, 0)%R (coords sup).
Proof.
  rewrite make_supercell_ok by (try lia; reflexivity). eexists. eexists. split; [reflexivity|]. split; [reflexivity|].
  cbn [coords]. split; [reflexivity|]. split.
  - cbn. unfold comb, vadd, vscale, vx, vy, vz. cbn [fst snd]. intros H. injection H. intros _ H1 H2. lra.
  - right. right. left. cbn. apply vec_eq; vec_unfold; lra.
Qed.

(** * Rows that do not fit *)
Lemma overflow_rows : write_rows 0 2 [[5; 6; 7]; []] (repeat (-1) 4) = Ok [5; 6; 7; -1].
Proof. reflexivity. Qed.
