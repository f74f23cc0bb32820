(** Lemmas about the voxel structure. *)
From Verif Require Import VoxelModel VoxelSpec NbSearchProofs TextProofs TildeProofs.
Open Scope nat_scope.

Lemma nth_error_firstn' {A} (l : list A) n i : i < n -> nth_error (firstn n l) i = nth_error l i.
Proof.
  revert n i. induction l as [|x l IH]; intros [|n] [|i] H; try lia; try reflexivity. cbn. apply IH. lia.
Qed.
Lemma nth_error_skipn' {A} (l : list A) n i : nth_error (skipn n l) i = nth_error l (n + i).
Proof.
  revert l. induction n as [|n IH]; intros [|x l]; try reflexivity; [destruct i; reflexivity|]. cbn. apply IH.
Qed.

Lemma nodup_app_l {A} (l m : list A) : NoDup (l ++ m) -> NoDup l.
Proof. induction l as [|x l IH]; intros H; [constructor|]. inversion H; subst. constructor; [rewrite in_app_iff in *; tauto|apply IH; assumption]. Qed.
Lemma nodup_app_r {A} (l m : list A) : NoDup (l ++ m) -> NoDup m.
Proof. induction l as [|x l IH]; intros H; [exact H|]. inversion H; subst. apply IH; assumption. Qed.

(** *** Binary searches *)
Lemma lower_ok bin x : by_x bin -> forall fuel lower upper, lower <= upper -> upper <= length bin -> upper - lower <= fuel ->
  exists k, lower_loop fuel bin x lower upper = Some (Ok k) /\ first_where (fun y => x <= y)%R bin lower upper k.
Proof.
  intros Hs. induction fuel as [|f IH]; intros lower upper L U F.
  - cbn [lower_loop]. destruct (Nat.ltb_spec lower upper); [lia|]. exists lower. split; [reflexivity|]. split; [lia|]. split; intros; lia.
  - cbn [lower_loop]. destruct (Nat.ltb_spec lower upper) as [H|H].
    2:{ exists lower. split; [reflexivity|]. split; [lia|]. split; intros; lia. }
    set (m := (lower + upper) / 2). assert (M : lower <= m < upper).
    { unfold m. split; [apply Nat.div_le_lower_bound; lia|apply Nat.div_lt_upper_bound; lia]. }
    destruct (nth_error bin m) as [it|] eqn:E; [|apply nth_error_None in E; lia]. rewrite (get_some _ _ _ E).
    destruct (Rlt_dec (fst it) x) as [C|C].
    + destruct (IH (m + 1) upper ltac:(lia) U ltac:(lia)) as (k & K & A & B1 & B2). exists k. split; [exact K|]. split; [lia|]. split; [|exact B2].
      intros i a I Ia. destruct (Nat.lt_ge_cases m i) as [G|G]; [apply (B1 i a); [lia|exact Ia]|].
      assert (W := Hs i m a it G Ia E). lra.
    + destruct (IH lower m ltac:(lia) ltac:(lia) ltac:(lia)) as (k & K & A & B1 & B2). exists k. split; [exact K|]. split; [lia|]. split; [exact B1|].
      intros i a I Ia. destruct (Nat.lt_ge_cases i m) as [G|G]; [apply (B2 i a); [lia|exact Ia]|].
      assert (W := Hs m i it a G E Ia). lra.
Qed.
Lemma upper_ok bin x : by_x bin -> forall fuel lower upper, lower <= upper -> upper <= length bin -> upper - lower <= fuel ->
  exists k, upper_loop fuel bin x lower upper = Some (Ok k) /\ first_where (fun y => x < y)%R bin lower upper k.
Proof.
  intros Hs. induction fuel as [|f IH]; intros lower upper L U F.
  - cbn [upper_loop]. destruct (Nat.ltb_spec lower upper); [lia|]. exists upper. split; [reflexivity|]. split; [lia|]. split; intros; lia.
  - cbn [upper_loop]. destruct (Nat.ltb_spec lower upper) as [H|H].
    2:{ exists upper. split; [reflexivity|]. split; [lia|]. split; intros; lia. }
    set (m := (lower + upper) / 2). assert (M : lower <= m < upper).
    { unfold m. split; [apply Nat.div_le_lower_bound; lia|apply Nat.div_lt_upper_bound; lia]. }
    destruct (nth_error bin m) as [it|] eqn:E; [|apply nth_error_None in E; lia]. rewrite (get_some _ _ _ E).
    destruct (Rlt_dec x (fst it)) as [C|C].
    + destruct (IH lower m ltac:(lia) ltac:(lia) ltac:(lia)) as (k & K & A & B1 & B2). exists k. split; [exact K|]. split; [lia|]. split; [exact B1|].
      intros i a I Ia. destruct (Nat.lt_ge_cases i m) as [G|G]; [apply (B2 i a); [lia|exact Ia]|].
      assert (W := Hs m i it a G E Ia). lra.
    + destruct (IH (m + 1) upper ltac:(lia) U ltac:(lia)) as (k & K & A & B1 & B2). exists k. split; [exact K|]. split; [lia|]. split; [|exact B2].
      intros i a I Ia. destruct (Nat.lt_ge_cases m i) as [G|G]; [apply (B1 i a); [lia|exact Ia]|].
      assert (W := Hs i m a it G Ia E). lra.
Qed.

(** An empty or reversed range is returned unchanged, without looking at the voxel. *)
Lemma lower_empty fuel bin x lower upper : upper <= lower -> lower_loop fuel bin x lower upper = Some (Ok lower).
Proof. intros H. destruct fuel; cbn [lower_loop upper_loop]; destruct (Nat.ltb_spec lower upper); try lia; reflexivity. Qed.
Lemma upper_empty fuel bin x lower upper : upper <= lower -> upper_loop fuel bin x lower upper = Some (Ok upper).
Proof. intros H. destruct fuel; cbn [lower_loop upper_loop]; destruct (Nat.ltb_spec lower upper); try lia; reflexivity. Qed.

(** *** Sorting *)
Lemma sorted_by_x l : StronglySorted entry_le l -> by_x l.
Proof.
  intros H. induction H as [|a l S IH F]; intros i j u v L I J; [destruct i; discriminate|].
  destruct i as [|i]; cbn in I.
  - injection I as <-. destruct j as [|j]; cbn in J; [injection J as <-; lra|].
    apply nth_error_In in J. rewrite Forall_forall in F. destruct (F v J) as [Q|[Q _]]; lra.
  - destruct j as [|j]; [lia|]. cbn in J. apply (IH i j); [lia|exact I|exact J].
Qed.

Lemma range_filter l lo hi k1 k2 : by_x l -> first_where (fun y => lo <= y)%R l 0 (length l) k1 -> first_where (fun y => hi < y)%R l 0 (length l) k2 ->
  forall it, In it (slice k1 k2 l) <-> In it l /\ (lo <= fst it <= hi)%R.
Proof.
  intros Hs (A1 & B1 & C1) (A2 & B2 & C2) it. unfold slice. split.
  - intros H. apply In_nth_error in H. destruct H as [i H].
    assert (I : i < k2 - k1) by (assert (X : i < length (firstn (k2 - k1) (skipn k1 l))) by (apply nth_error_Some; congruence); rewrite firstn_length in X; lia).
    rewrite nth_error_firstn' in H by exact I. rewrite nth_error_skipn' in H.
    split; [apply nth_error_In in H; exact H|]. split; [apply (C1 (k1 + i) it ltac:(lia) H)|].
    assert (W := B2 (k1 + i) it ltac:(lia) H). lra.
  - intros [H [L U]]. apply In_nth_error in H. destruct H as [i H]. assert (I : i < length l) by (apply nth_error_Some; congruence).
    assert (k1 <= i). { destruct (Nat.lt_ge_cases i k1) as [X|X]; [|exact X]. assert (W := B1 i it ltac:(lia) H). lra. }
    assert (i < k2). { destruct (Nat.lt_ge_cases i k2) as [X|X]; [exact X|]. assert (W := C2 i it ltac:(lia) H). lra. }
    apply nth_error_In with (n := i - k1). rewrite nth_error_firstn' by lia. rewrite nth_error_skipn'. replace (k1 + (i - k1)) with i by lia. exact H.
Qed.

(** *** Inserting *)
Definition same_geom (v w : voxels) : Prop :=
  v_ny v = v_ny w /\ v_nz v = v_nz w /\ v_sizeY v = v_sizeY w /\ v_sizeZ v = v_sizeZ w /\ v_a v = v_a w /\ v_b v = v_b w /\ v_c v = v_c w.
Lemma voxel_index_same v w p : same_geom v w -> voxel_index v p = voxel_index w p.
Proof. intros (A & B & C & E & F & G & H). unfold voxel_index, folded. rewrite A, B, C, E, G, H. reflexivity. Qed.

Lemma index_range v p : (1 <= v_ny v)%Z -> (1 <= v_nz v)%Z ->
  (0 <= fst (voxel_index v p) < v_ny v)%Z /\ (0 <= snd (voxel_index v p) < v_nz v)%Z.
Proof. intros A B. unfold voxel_index. destruct (folded v p). cbn [fst snd]. lia. Qed.

Definition vkey (v : voxels) (p : vec) : nat * nat := (Z.to_nat (fst (voxel_index v p)), Z.to_nat (snd (voxel_index v p))).
Definition in_voxel (v : voxels) (iy iz : nat) (p : vec) : bool := (fst (vkey v p) =? iy) && (snd (vkey v p) =? iz).

Lemma insert_ok v0 v a p : same_geom v0 v -> (1 <= v_ny v0)%Z -> (1 <= v_nz v0)%Z -> shaped (Z.to_nat (v_ny v0)) (Z.to_nat (v_nz v0)) (v_bins v) ->
  exists v', voxel_insert v a p = Ok v' /\ same_geom v0 v' /\ shaped (Z.to_nat (v_ny v0)) (Z.to_nat (v_nz v0)) (v_bins v') /\
  forall iy iz b, get2 (v_bins v) iy iz = Some b -> get2 (v_bins v') iy iz = Some (b ++ if in_voxel v0 iy iz p then [(vx p, a)] else []).
Proof.
  intros Sg Hy Hz [L Sh]. destruct (index_range v0 p Hy Hz) as [R1 R2]. unfold voxel_insert. rewrite <- (voxel_index_same v0 v p Sg).
  assert (K := eq_refl (vkey v0 p)). unfold vkey in K at 2. destruct (voxel_index v0 p) as [iy iz] eqn:E. cbn [fst snd] in *.
  destruct (nth_error (v_bins v) (Z.to_nat iy)) as [row|] eqn:N1; [|apply nth_error_None in N1; lia].
  rewrite (get_some _ _ _ N1). cbn [bind]. assert (Lr := Sh _ _ N1).
  destruct (nth_error row (Z.to_nat iz)) as [bin|] eqn:N2; [|apply nth_error_None in N2; lia].
  rewrite (get_some _ _ _ N2). cbn [bind].
  destruct (set_ok row (Z.to_nat iz) (bin ++ [(vx p, a)])) as (row' & E1 & L1 & G1); [lia|]. rewrite E1. cbn [bind].
  destruct (set_ok (v_bins v) (Z.to_nat iy) row') as (bins & E2 & L2 & G2); [lia|]. rewrite E2. cbn [bind].
  eexists. split; [reflexivity|]. cbn [v_bins]. split; [destruct Sg as (? & ? & ? & ? & ? & ? & ?); repeat split; assumption|]. split.
  - split; [congruence|]. intros r l. rewrite G2. destruct (Nat.eqb_spec r (Z.to_nat iy)); [intros [= <-]; congruence|apply Sh].
  - intros jy jz b Hb. unfold get2 in *. rewrite G2. unfold in_voxel. rewrite K. cbn [fst snd]. rewrite (Nat.eqb_sym (Z.to_nat iy)), (Nat.eqb_sym (Z.to_nat iz)).
    destruct (Nat.eqb_spec jy (Z.to_nat iy)) as [->|D]; cbn [andb].
    + rewrite G1. rewrite N1 in Hb. destruct (Nat.eqb_spec jz (Z.to_nat iz)) as [->|D]; [rewrite N2 in Hb; injection Hb as <-; reflexivity|].
      rewrite app_nil_r. exact Hb.
    + rewrite app_nil_r. exact Hb.
Qed.

Lemma insert_all_ok v0 ps : (1 <= v_ny v0)%Z -> (1 <= v_nz v0)%Z -> shaped (Z.to_nat (v_ny v0)) (Z.to_nat (v_nz v0)) (v_bins v0) ->
  exists v', insert_all v0 ps = Ok v' /\ same_geom v0 v' /\ shaped (Z.to_nat (v_ny v0)) (Z.to_nat (v_nz v0)) (v_bins v') /\
  forall iy iz b, get2 (v_bins v0) iy iz = Some b ->
  get2 (v_bins v') iy iz = Some (b ++ map (fun a => (vx (nth a ps (0, 0, 0)%R), a)) (filter (fun a => in_voxel v0 iy iz (nth a ps (0, 0, 0)%R)) (seq 0 (length ps)))).
Proof.
  intros Hy Hz Sh. unfold insert_all.
  assert (G : forall l v, Forall (fun a => a < length ps) l -> same_geom v0 v -> shaped (Z.to_nat (v_ny v0)) (Z.to_nat (v_nz v0)) (v_bins v) ->
    exists v', foldM (fun v a => bind (get ps a) (fun p => voxel_insert v a p)) l v = Ok v' /\ same_geom v0 v' /\ shaped (Z.to_nat (v_ny v0)) (Z.to_nat (v_nz v0)) (v_bins v') /\
    forall iy iz b, get2 (v_bins v) iy iz = Some b ->
    get2 (v_bins v') iy iz = Some (b ++ map (fun a => (vx (nth a ps (0, 0, 0)%R), a)) (filter (fun a => in_voxel v0 iy iz (nth a ps (0, 0, 0)%R)) l))).
  { induction l as [|a l IH]; intros v F Sg S1.
    - exists v. split; [reflexivity|]. split; [exact Sg|]. split; [exact S1|]. intros iy iz b Hb. cbn. rewrite app_nil_r. exact Hb.
    - inversion F; subst. cbn [foldM]. rewrite (get_ok ps a (0, 0, 0)%R) by assumption. cbn [bind].
      destruct (insert_ok v0 v a (nth a ps (0, 0, 0)%R) Sg Hy Hz S1) as (v1 & E1 & Sg1 & Sh1 & B1). rewrite E1. cbn [bind].
      destruct (IH v1 ltac:(assumption) Sg1 Sh1) as (v2 & E2 & Sg2 & Sh2 & B2). exists v2. split; [exact E2|]. split; [exact Sg2|]. split; [exact Sh2|].
      intros iy iz b Hb. rewrite (B2 _ _ _ (B1 _ _ _ Hb)). rewrite <- app_assoc. do 2 f_equal. cbn [filter]. destruct (in_voxel v0 iy iz _); reflexivity. }
  apply G; [|repeat split|exact Sh]. apply Forall_forall. intros a A. apply in_seq in A. lia.
Qed.

Lemma new_shaped vsy vsz a b c : let v := voxels_new vsy vsz a b c in shaped (Z.to_nat (v_ny v)) (Z.to_nat (v_nz v)) (v_bins v) /\
  forall iy iz, iy < Z.to_nat (v_ny v) -> iz < Z.to_nat (v_nz v) -> get2 (v_bins v) iy iz = Some [].
Proof.
  cbn [v_ny v_nz v_bins voxels_new]. set (ny := Z.to_nat _). set (nz := Z.to_nat _). split.
  - split; [apply repeat_length|]. intros r l N. apply nth_error_In, repeat_spec in N. subst. apply repeat_length.
  - intros iy iz A B. unfold get2. rewrite (nth_error_repeat _ A). apply nth_error_repeat. exact B.
Qed.

Lemma range_query f vsy vsz a b c ps : sorts f -> let v := voxels_new vsy vsz a b c in (1 <= v_ny v)%Z -> (1 <= v_nz v)%Z ->
  exists v', insert_all v ps = Ok v' /\
  forall iy iz, (0 <= iy < v_ny v)%Z -> (0 <= iz < v_nz v)%Z -> exists bin, cell (v_bins (sort_items f v')) iy iz = Some bin /\
  forall lo hi, exists k1 k2,
    lower_loop (length bin) bin lo 0 (length bin) = Some (Ok k1) /\ upper_loop (length bin) bin hi 0 (length bin) = Some (Ok k2) /\
    NoDup (map snd (slice k1 k2 bin)) /\
    forall x at_, In (x, at_) (slice k1 k2 bin) <-> exists p, nth_error ps at_ = Some p /\ x = vx p /\ voxel_index v p = (iy, iz) /\ (lo <= vx p <= hi)%R.
Proof.
  intros Hf v Hy Hz. destruct (new_shaped vsy vsz a b c) as [Sh Emp]. fold v in Sh, Emp.
  destruct (insert_all_ok v ps Hy Hz Sh) as (v' & E & Sg & Sh' & B). exists v'. split; [exact E|]. intros iy iz Iy Iz.
  specialize (B (Z.to_nat iy) (Z.to_nat iz) [] (Emp (Z.to_nat iy) (Z.to_nat iz) ltac:(lia) ltac:(lia))). cbn [app] in B.
  set (items := map (fun a => (vx (nth a ps (0, 0, 0)%R), a)) (filter (fun a => in_voxel v (Z.to_nat iy) (Z.to_nat iz) (nth a ps (0, 0, 0)%R)) (seq 0 (length ps)))) in B.
  exists (f items). split.
  { cbn [sort_items v_bins]. unfold cell, get2 in *. rewrite nth_error_map. destruct (nth_error (v_bins v') (Z.to_nat iy)) as [row|]; [|discriminate].
    cbn [option_map]. rewrite nth_error_map, B. reflexivity. }
  destruct (Hf items) as [P Q]. apply sorted_by_x in Q. intros lo hi.
  destruct (lower_ok (f items) lo Q (length (f items)) 0 (length (f items)) ltac:(lia) ltac:(lia) ltac:(lia)) as (k1 & K1 & F1).
  destruct (upper_ok (f items) hi Q (length (f items)) 0 (length (f items)) ltac:(lia) ltac:(lia) ltac:(lia)) as (k2 & K2 & F2).
  exists k1, k2. split; [exact K1|]. split; [exact K2|]. split.
  - assert (N : NoDup (map snd (f items))).
    { apply (Permutation_NoDup (l := map snd items)); [apply Permutation_map, P|]. unfold items. rewrite map_map. cbn [snd]. rewrite map_id. apply NoDup_filter, seq_NoDup. }
    unfold slice. clear - N. revert N. generalize (f items). intros l N. rewrite <- firstn_map, <- skipn_map. generalize dependent (map snd l). intros m N.
    rewrite <- (firstn_skipn k1 m) in N. apply nodup_app_r in N. rewrite <- (firstn_skipn (k2 - k1) (skipn k1 m)) in N. apply nodup_app_l in N. exact N.
  - intros x at_. rewrite (range_filter _ _ _ _ _ Q F1 F2). cbn [fst]. split.
    + intros [H R1]. apply (Permutation_in _ (Permutation_sym P)) in H. unfold items in H. apply in_map_iff in H. destruct H as (a0 & [= <- <-] & H).
      apply filter_In in H. destruct H as [H1 H2]. apply in_seq in H1. exists (nth a0 ps (0, 0, 0)%R). split; [apply nth_error_nth'; lia|]. split; [reflexivity|]. split; [|exact R1].
      unfold in_voxel, vkey in H2. apply andb_prop in H2. cbn [fst snd] in H2. rewrite !Nat.eqb_eq in H2.
      destruct (index_range v (nth a0 ps (0, 0, 0)%R) Hy Hz) as [X Y]. destruct (voxel_index v _) as [u w]. cbn [fst snd] in *. f_equal; lia.
    + intros (p & H1 & -> & H2 & R1). split; [|exact R1]. apply (Permutation_in _ P). unfold items. apply in_map_iff. exists at_.
      rewrite (nth_error_nth ps at_ (0, 0, 0)%R H1). split; [reflexivity|]. apply filter_In. split; [apply in_seq; assert (at_ < length ps) by (apply nth_error_Some; congruence); lia|].
      rewrite (nth_error_nth ps at_ (0, 0, 0)%R H1). unfold in_voxel, vkey. rewrite H2. cbn [fst snd]. rewrite !Nat.eqb_refl. reflexivity.
Qed.

(** *** The voxel of a position *)
Open Scope R_scope.
Lemma floorZ_shift x k : floorZ (x + IZR k) = (floorZ x + k)%Z.
Proof. apply floorZ_unique. rewrite plus_IZR. destruct (floorZ_spec x). lra. Qed.

Lemma index_periodic v p i j k : lower_triangular (v_a v) (v_b v) (v_c v) -> 0 < vy (v_b v) -> 0 < vz (v_c v) ->
  voxel_index v (vadd p (comb (v_a v) (v_b v) (v_c v) (IZR i) (IZR j) (IZR k))) = voxel_index v p.
Proof.
  intros (A1 & A2 & B1) Pb Pc. unfold voxel_index. enough (F : folded v (vadd p (comb (v_a v) (v_b v) (v_c v) (IZR i) (IZR j) (IZR k))) = folded v p) by (rewrite F; reflexivity).
  unfold folded. cbv zeta. destruct p as [[px py] pz]. destruct (v_a v) as [[ax ay] az]. destruct (v_b v) as [[bx by_] bz]. destruct (v_c v) as [[cx cy] cz].
  unfold comb, vadd, vscale, vx, vy, vz in *. cbn [fst snd] in *. subst ay az bz.
  cbv [vadd vx vy vz fst snd]. replace ((pz + (IZR i * 0 + IZR j * 0 + IZR k * cz)) * (1 / cz)) with (pz * (1 / cz) + IZR k) by (field; lra).
  rewrite floorZ_shift. rewrite plus_IZR. set (sz := IZR (floorZ (pz * (1 / cz)))).
  replace ((py + (IZR i * 0 + IZR j * by_ + IZR k * cy) - cy * (sz + IZR k)) * (1 / by_)) with ((py - cy * sz) * (1 / by_) + IZR j) by (field; lra).
  rewrite floorZ_shift. rewrite plus_IZR. f_equal; ring.
Qed.

Lemma index_always vsy vsz a b c p : let v := voxels_new vsy vsz a b c in (1 <= v_ny v)%Z -> (1 <= v_nz v)%Z ->
  (0 <= fst (voxel_index v p) < v_ny v)%Z /\ (0 <= snd (voxel_index v p) < v_nz v)%Z.
Proof. intros v. apply index_range. Qed.

(** A requested size of more than twice the box: no voxels, and the first insertion leaves the arrays. *)
Lemma floorZ_val x k : IZR k <= x -> x < IZR (k + 1) -> floorZ x = k.
Proof. intros A B. apply floorZ_unique. rewrite plus_IZR in B. lra. Qed.
Lemma too_wide vsy vsz a b c at_ p : 0 < vy b -> 2 * vy b < vsy -> voxel_insert (voxels_new vsy vsz a b c) at_ p = Err IndexError.
Proof.
  intros P W. assert (N : v_ny (voxels_new vsy vsz a b c) = 0%Z).
  { cbn [v_ny voxels_new]. assert (Q : 0 < vy b / vsy) by (apply Rdiv_lt_0_compat; lra). assert (Q2 : vy b / vsy < 1 / 2).
    { apply (Rmult_lt_reg_r vsy); [lra|]. unfold Rdiv at 1. rewrite Rmult_assoc, Rinv_l by lra. lra. }
    apply floorZ_val; [lra|]. cbn. lra. }
  unfold voxel_insert. destruct (voxel_index _ p) as [iy iz]. rewrite get_bad; [reflexivity|]. cbn [v_bins voxels_new]. rewrite repeat_length.
  cbn [v_ny voxels_new] in N. rewrite N. apply Nat.le_0_l.
Qed.

(** The y index divides by the z size: box 10 x 10 x 30 with voxels 5 x 15, atom at y = 7. *)
Definition ex_vox := voxels_new 5 15 (10, 0, 0) (0, 10, 0) (0, 0, 30).
Lemma ex_vox_counts : v_ny ex_vox = 2%Z /\ v_nz ex_vox = 2%Z.
Proof. split; cbn [v_ny v_nz ex_vox voxels_new]; apply floorZ_val; unfold vy, vz; cbn [fst snd Z.add Pos.add Pos.succ]; lra. Qed.
Lemma ex_vox_index : voxel_index ex_vox (1, 7, 1) = (0, 0)%Z /\ floorZ (7 / (10 / 2)) = 1%Z.
Proof.
  split; [|apply floorZ_val; cbn; lra]. destruct ex_vox_counts as [Ny Nz]. unfold voxel_index, folded. rewrite Ny, Nz.
  cbn [v_sizeY v_sizeZ v_c v_b ex_vox voxels_new]. cbn [v_nz ex_vox voxels_new] in Nz. rewrite Nz. unfold vx, vy, vz. cbn [fst snd].
  rewrite (floorZ_val (1 * (1 / 30)) 0) by (cbn; lra). rewrite (floorZ_val ((7 - 0 * 0) * (1 / 10)) 0) by (cbn; lra).
  rewrite (floorZ_val ((7 - 0 * 0 - 10 * 0) / (30 / 2)) 0) by (cbn; lra). rewrite (floorZ_val ((1 - 30 * 0) / 15) 0) by (cbn; lra). reflexivity.
Qed.
(** In general with positive sizes every atom whose folded y is below the z size lands in row 0. *)
Lemma wrong_row vsy vsz a b c p : let v := voxels_new vsy vsz a b c in (1 <= v_ny v)%Z -> (1 <= v_nz v)%Z -> 0 < vz c ->
  0 <= fst (folded v p) < vz c / IZR (v_nz v) -> fst (voxel_index v p) = 0%Z.
Proof.
  intros v Ny Nz Pz H. unfold voxel_index. destruct (folded v p) as [y z]. cbn [fst snd] in *. change (v_sizeY v) with (vz c / IZR (v_nz v)).
  assert (Pn : 0 < IZR (v_nz v)) by (apply IZR_lt; lia). assert (Q : 0 < vz c / IZR (v_nz v)) by (apply Rdiv_lt_0_compat; assumption).
  rewrite (floorZ_val (y / (vz c / IZR (v_nz v))) 0); [lia| |].
  - apply Rmult_le_pos; [lra|]. left. apply Rinv_0_lt_compat, Q.
  - cbn. apply (Rmult_lt_reg_r (vz c / IZR (v_nz v))); [exact Q|]. unfold Rdiv at 1. rewrite Rmult_assoc, Rinv_l by lra. lra.
Qed.

(** A sorting function exists: insertion sort. *)
Fixpoint ins (a : R * nat) (l : list (R * nat)) : list (R * nat) :=
  match l with
  | [] => [a]
  | b :: r => if Rlt_dec (fst a) (fst b) then a :: l else if Rlt_dec (fst b) (fst a) then b :: ins a r
              else if (snd a <=? snd b)%nat then a :: l else b :: ins a r
  end.
Definition isort (l : list (R * nat)) : list (R * nat) := fold_right ins [] l.
Lemma ins_perm a l : Permutation (a :: l) (ins a l).
Proof.
  induction l as [|b r IH]; [reflexivity|]. cbn. destruct (Rlt_dec _ _); [reflexivity|]. destruct (Rlt_dec _ _).
  - etransitivity; [apply perm_swap|]. apply perm_skip, IH.
  - destruct (_ <=? _)%nat; [reflexivity|]. etransitivity; [apply perm_swap|]. apply perm_skip, IH.
Qed.
Lemma entry_le_trans a b c : entry_le a b -> entry_le b c -> entry_le a c.
Proof. unfold entry_le. intros [A|[A A']] [B|[B B']]; try (left; lra). right. split; [lra|lia]. Qed.
Lemma ins_sorted a l : StronglySorted entry_le l -> StronglySorted entry_le (ins a l).
Proof.
  intros H. induction H as [|b r Hr IH F]; [repeat constructor|]. cbn.
  assert (X : entry_le a b -> StronglySorted entry_le (a :: b :: r)).
  { intros E. constructor; [constructor; assumption|]. constructor; [exact E|]. rewrite Forall_forall in *. intros z Z. eapply entry_le_trans; [exact E|apply F, Z]. }
  assert (Y : entry_le b a -> StronglySorted entry_le (b :: ins a r)).
  { intros E. constructor; [exact IH|]. rewrite Forall_forall in *. intros z Z. apply (Permutation_in _ (Permutation_sym (ins_perm a r))) in Z.
    destruct Z as [<-|Z]; [exact E|apply F, Z]. }
  destruct (Rlt_dec (fst a) (fst b)); [apply X; left; assumption|]. destruct (Rlt_dec (fst b) (fst a)); [apply Y; left; assumption|].
  destruct (Nat.leb_spec (snd a) (snd b)); [apply X|apply Y]; right; (split; [lra|lia]).
Qed.
Lemma isort_sorts : sorts isort.
Proof.
  intros l. induction l as [|a l [IH1 IH2]]; [split; [reflexivity|constructor]|]. cbn [isort fold_right]. split.
  - etransitivity; [apply perm_skip, IH1|]. apply ins_perm.
  - apply ins_sorted, IH2.
Qed.

Lemma ex_search : by_x [(1, 4%nat); (2, 0%nat); (2, 3%nat); (5, 1%nat)] /\
  lower_loop 4 [(1, 4%nat); (2, 0%nat); (2, 3%nat); (5, 1%nat)] 2 0 4 = Some (Ok 1%nat) /\
  upper_loop 4 [(1, 4%nat); (2, 0%nat); (2, 3%nat); (5, 1%nat)] 2 0 4 = Some (Ok 3%nat).
Proof.
  split; [|split].
  - apply sorted_by_x. repeat constructor; unfold entry_le; cbn; try lra; try (left; lra); right; split; (lra || lia).
  - cbn. destruct (Rlt_dec 2 2); [lra|]. cbn. destruct (Rlt_dec 2 2); [lra|]. cbn. destruct (Rlt_dec 1 2); [|lra]. reflexivity.
  - cbn. destruct (Rlt_dec 2 2); [lra|]. cbn. destruct (Rlt_dec 2 5); [|lra]. reflexivity.
Qed.

Lemma ex_vox_box : lower_triangular (v_a ex_vox) (v_b ex_vox) (v_c ex_vox) /\ 0 < vy (v_b ex_vox) /\ 0 < vz (v_c ex_vox).
Proof. unfold lower_triangular. cbn. lra. Qed.
Lemma ex_too_wide : voxel_insert (voxels_new 30 5 (10, 0, 0) (0, 10, 0) (0, 0, 10)) 0 (1, 1, 1) = Err IndexError.
Proof. apply too_wide; cbn; lra. Qed.
Lemma slabs_wrong : exists v p, v_ny v = 2%Z /\ v_nz v = 2%Z /\ vy (v_b v) = 10 /\ 0 <= vy p < 10 /\
  fst (voxel_index v p) = 0%Z /\ floorZ (vy p / (vy (v_b v) / IZR (v_ny v))) = 1%Z.
Proof.
  exists ex_vox, (1, 7, 1). destruct ex_vox_counts as [A B]. destruct ex_vox_index as [C E]. rewrite A, C. repeat split; try assumption; cbn; try lra; exact E.
Qed.

(** First box vector (10, 5, 0): the image one cell along it moves half a box in y. *)
Definition ex_tilt := voxels_new 5 5 (10, 5, 0) (0, 10, 0) (0, 0, 10).
Lemma ex_tilt_counts : v_ny ex_tilt = 2%Z /\ v_nz ex_tilt = 2%Z.
Proof. split; cbn [v_ny v_nz ex_tilt voxels_new]; apply floorZ_val; unfold vy, vz; cbn [fst snd Z.add Pos.add Pos.succ]; lra. Qed.
Lemma ex_tilt_index y : 0 <= y < 10 -> voxel_index ex_tilt (0, y, 1) = (Z.max 0 (Z.min 1 (floorZ (y / 5))), 0)%Z.
Proof.
  intros Y. destruct ex_tilt_counts as [Ny Nz]. unfold voxel_index, folded. rewrite Ny, Nz.
  cbn [v_sizeY v_sizeZ v_c v_b ex_tilt voxels_new]. cbn [v_nz ex_tilt voxels_new] in Nz. rewrite Nz. unfold vx, vy, vz. cbn [fst snd].
  rewrite (floorZ_val (1 * (1 / 10)) 0) by (cbn; lra). rewrite (floorZ_val ((y - 0 * 0) * (1 / 10)) 0) by (cbn; lra).
  rewrite (floorZ_val ((1 - 10 * 0) / 5) 0) by (cbn; lra). replace ((y - 0 * 0 - 10 * 0) / (10 / 2)) with (y / 5) by field. reflexivity.
Qed.
Lemma images_split : exists v p i j k, (1 <= v_ny v)%Z /\ (1 <= v_nz v)%Z /\ 0 < vy (v_b v) /\ 0 < vz (v_c v) /\
  voxel_index v (vadd p (comb (v_a v) (v_b v) (v_c v) (IZR i) (IZR j) (IZR k))) <> voxel_index v p.
Proof.
  exists ex_tilt, (-10, 2, 1), 1%Z, 0%Z, 0%Z. destruct ex_tilt_counts as [Ny Nz]. rewrite Ny, Nz. do 2 (split; [lia|]). split; [cbn; lra|]. split; [cbn; lra|].
  assert (W : vadd (-10, 2, 1) (comb (v_a ex_tilt) (v_b ex_tilt) (v_c ex_tilt) (IZR 1) (IZR 0) (IZR 0)) = (0, 7, 1)).
  { cbv [vadd comb vscale v_a v_b v_c ex_tilt voxels_new vx vy vz fst snd]. apply f_equal2; [apply f_equal2|]; ring. }
  rewrite W.
  assert (X : voxel_index ex_tilt (-10, 2, 1) = voxel_index ex_tilt (0, 2, 1)) by reflexivity. rewrite X.
  rewrite !ex_tilt_index by lra. rewrite (floorZ_val (7 / 5) 1) by (cbn; lra). rewrite (floorZ_val (2 / 5) 0) by (cbn; lra). discriminate.
Qed.

(** *** Numbers of voxels and the slab of a position *)
Lemma voxel_counts vsy vsz a b c : let v := voxels_new vsy vsz a b c in
  IZR (v_ny v) - 1 / 2 <= vy b / vsy < IZR (v_ny v) + 1 / 2 /\ IZR (v_nz v) - 1 / 2 <= vz c / vsz < IZR (v_nz v) + 1 / 2.
Proof. cbn zeta. unfold voxels_new. cbn [v_ny v_nz]. destruct (floorZ_spec (vy b / vsy + 1 / 2)), (floorZ_spec (vz c / vsz + 1 / 2)). lra. Qed.
Lemma clamp_slab w n y : 0 < w -> (1 <= n)%Z -> let k := Z.max 0 (Z.min (n - 1) (floorZ (y / w))) in
  (0 <= k < n)%Z /\ (0 <= y < w * IZR n -> IZR k * w <= y < (IZR k + 1) * w) /\ (y < 0 -> k = 0%Z) /\ (w * IZR n <= y -> k = (n - 1)%Z).
Proof.
  intros Hw Hn k. destruct (floorZ_spec (y / w)) as [F1 F2]. assert (Y : y = y / w * w) by (field; lra). set (q := y / w) in *. clearbody q. subst y. split; [lia|]. split; [|split].
  - intros [H1 H2]. assert (0 <= q) by nra. assert (q < IZR n) by nra. assert ((0 <= floorZ q < n)%Z). { split; [apply floorZ_ge; exact H|apply floorZ_lt; exact H0]. } assert (k = floorZ q) as -> by lia. split; nra.
  - intros H. assert (q < 0) by nra. assert ((floorZ q < 0)%Z) by (apply floorZ_lt; exact H0). lia.
  - intros H. assert (IZR n <= q) by nra. assert ((n <= floorZ q)%Z) by (apply floorZ_ge; exact H0). lia.
Qed.
Lemma voxel_slab vsy vsz a b c p : let v := voxels_new vsy vsz a b c in (1 <= v_ny v)%Z -> (1 <= v_nz v)%Z -> 0 < vz c -> 0 < vsz ->
  forall y z, folded v p = (y, z) -> forall iy iz, voxel_index v p = (iy, iz) ->
  (0 <= z < vsz * IZR (v_nz v) -> IZR iz * vsz <= z < (IZR iz + 1) * vsz) /\ (vsz * IZR (v_nz v) <= z -> iz = (v_nz v - 1)%Z) /\
  (0 <= y < vz c / IZR (v_nz v) * IZR (v_ny v) -> IZR iy * (vz c / IZR (v_nz v)) <= y < (IZR iy + 1) * (vz c / IZR (v_nz v))) /\
  (vz c / IZR (v_nz v) * IZR (v_ny v) <= y -> iy = (v_ny v - 1)%Z).
Proof.
  intros v Ny Nz Pz Ps y z Ef iy iz Ei. unfold voxel_index in Ei. rewrite Ef in Ei. change (v_sizeY v) with (vz c / IZR (v_nz v)) in Ei. change (v_sizeZ v) with vsz in Ei.
  assert (Pn : 0 < IZR (v_nz v)) by (apply IZR_lt; lia). assert (Q : 0 < vz c / IZR (v_nz v)) by (apply Rdiv_lt_0_compat; assumption).
  destruct (clamp_slab vsz (v_nz v) z Ps Nz) as (_ & A1 & _ & A2). destruct (clamp_slab _ (v_ny v) y Q Ny) as (_ & B1 & _ & B2).
  injection Ei as <- <-. repeat split; auto; try (apply A1; assumption); try (apply B1; assumption).
Qed.
