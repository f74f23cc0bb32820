From Verif Require Import Vec NbModel StructProofs NbListProofs.
Open Scope Z_scope.

(** * Floor and ceiling *)
Lemma floorZ_spec x : (IZR (floorZ x) <= x < IZR (floorZ x) + 1)%R.
Proof. unfold floorZ. rewrite minus_IZR. destruct (archimed x). lra. Qed.
Lemma floorZ_unique x k : (IZR k <= x < IZR k + 1)%R -> floorZ x = k.
Proof.
  intros [H1 H2]. destruct (floorZ_spec x) as [H3 H4].
  assert (A : (IZR k < IZR (floorZ x + 1))%R) by (rewrite plus_IZR; lra).
  assert (B : (IZR (floorZ x) < IZR (k + 1))%R) by (rewrite plus_IZR; lra).
  apply lt_IZR in A, B. lia.
Qed.
Lemma floorZ_ge x k : (IZR k <= x)%R -> k <= floorZ x.
Proof. intros H. destruct (floorZ_spec x) as [_ H2]. assert (A : (IZR k < IZR (floorZ x + 1))%R) by (rewrite plus_IZR; lra). apply lt_IZR in A. lia. Qed.
Lemma floorZ_lt x k : (x < IZR k)%R -> floorZ x < k.
Proof. intros H. destruct (floorZ_spec x) as [H1 _]. apply lt_IZR. lra. Qed.
Lemma ceilZ_spec x : (IZR (ceilZ x) - 1 < x <= IZR (ceilZ x))%R.
Proof. unfold ceilZ. rewrite opp_IZR. destruct (floorZ_spec (- x)%R). lra. Qed.
Lemma ceilZ_unique x k : (IZR k - 1 < x <= IZR k)%R -> ceilZ x = k.
Proof. intros [H1 H2]. unfold ceilZ. rewrite (floorZ_unique (- x)%R (- k)); [lia|]. rewrite opp_IZR. lra. Qed.
Lemma ceilZ_gt x k : (IZR k < x)%R -> k < ceilZ x.
Proof. intros H. destruct (ceilZ_spec x) as [_ H2]. apply lt_IZR. lra. Qed.
Lemma ceilZ_nonneg x : (0 <= x)%R -> 0 <= ceilZ x.
Proof. intros H. destruct (ceilZ_spec x) as [H1 H2]. assert (A : (IZR (-1) < IZR (ceilZ x))%R) by (cbn; lra). apply lt_IZR in A. lia. Qed.

Lemma Rltb_true x y : Rltb x y = true <-> (x < y)%R.
Proof. unfold Rltb. destruct (Rlt_dec x y); split; intros; auto; discriminate. Qed.

(** * Flattened bin numbers *)
Definition in_box (num b : Z * Z * Z) : Prop :=
  let '(n0, n1, n2) := num in let '(b0, b1, b2) := b in 0 <= b0 < n0 /\ 0 <= b1 < n1 /\ 0 <= b2 < n2.

Lemma flat_range num b : in_box num b -> 0 <= flat num b < num_bins num.
Proof.
  destruct num as [[n0 n1] n2], b as [[b0 b1] b2]. cbn. intros [H0 [H1 H2]].
  assert (E1 : 0 <= b1 * n0) by (apply Z.mul_nonneg_nonneg; lia).
  assert (E2 : b1 * n0 <= (n1 - 1) * n0) by (apply Z.mul_le_mono_nonneg_r; lia).
  assert (P : 0 <= n0 * n1) by (apply Z.mul_nonneg_nonneg; lia).
  assert (E3 : 0 <= b2 * (n0 * n1)) by (apply Z.mul_nonneg_nonneg; lia).
  assert (E4 : b2 * (n0 * n1) <= (n2 - 1) * (n0 * n1)) by (apply Z.mul_le_mono_nonneg_r; lia).
  replace (b2 * n0 * n1) with (b2 * (n0 * n1)) by ring. replace (n0 * n1 * n2) with (n2 * (n0 * n1)) by ring. lia.
Qed.

Lemma flat_inj num b b' : in_box num b -> in_box num b' -> flat num b = flat num b' -> b = b'.
Proof.
  destruct num as [[n0 n1] n2], b as [[b0 b1] b2], b' as [[c0 c1] c2]. cbn. intros [H0 [H1 H2]] [G0 [G1 G2]] E.
  assert (E' : b0 + n0 * (b1 + n1 * b2) = c0 + n0 * (c1 + n1 * c2)) by (rewrite <- !Z.mul_assoc in E; lia).
  assert (A : b0 = c0 /\ b1 + n1 * b2 = c1 + n1 * c2).
  { destruct (Z.div_mod_unique n0 (b1 + n1 * b2) (c1 + n1 * c2) b0 c0); [left; lia|left; lia|lia|]. split; assumption. }
  destruct A as [-> A]. destruct (Z.div_mod_unique n1 b2 c2 b1 c1); [left; lia|left; lia|lia|]. congruence.
Qed.

(** * Which bins are looked at *)
Definition ext3 (rcut : R) (g : grid) : Z * Z * Z :=
  (axis_ext rcut (vx (g_size g)), axis_ext rcut (vy (g_size g)), axis_ext rcut (vz (g_size g))).

Definition box_of (num : Z * Z * Z) (pbc : bool * bool * bool) (b t : Z * Z * Z) : Z * Z * Z :=
  let '(n0, n1, n2) := num in let '(w0, w1, w2) := pbc in let '(b0, b1, b2) := b in let '(i, j, k) := t in
  (axis_wrap w0 n0 (b0 + i), axis_wrap w1 n1 (b1 + j), axis_wrap w2 n2 (b2 + k)).

Definition in_boxb (num b : Z * Z * Z) : bool :=
  let '(n0, n1, n2) := num in let '(c0, c1, c2) := b in
  (0 <=? c0) && (c0 <? n0) && (0 <=? c1) && (c1 <? n1) && (0 <=? c2) && (c2 <? n2).

Lemma in_boxb_iff num b : in_boxb num b = true <-> in_box num b.
Proof. destruct num as [[n0 n1] n2], b as [[c0 c1] c2]. cbn. rewrite !andb_true_iff, !Z.leb_le, !Z.ltb_lt. tauto. Qed.

Lemma flat_map_grid {D} (f : Z * Z * Z -> D) l0 l1 l2 :
  flat_map (fun i => flat_map (fun j => map (fun k => f (i, j, k)) l2) l1) l0 = map f (grid3 l0 l1 l2).
Proof.
  unfold grid3. induction l0 as [|i r IH]; [reflexivity|]. cbn [flat_map]. rewrite map_app, IH. f_equal.
  clear. induction l1 as [|j r IH]; [reflexivity|]. cbn [flat_map]. rewrite map_app, IH, map_map. reflexivity.
Qed.

Definition ext_grid (e : Z * Z * Z) : list (Z * Z * Z) :=
  let '(e0, e1, e2) := e in grid3 (zrange (- e0) e0) (zrange (- e1) e1) (zrange (- e2) e2).

Definition cell_of (num : Z * Z * Z) (c : Z * Z * Z) : Z := if in_boxb num c then flat num c else -1.

Lemma neigh_bins_eq rcut g p : neigh_bins rcut g p =
  map (fun t => cell_of (g_num g) (box_of (g_num g) (g_pbc g) (bin_xyz g p) t)) (ext_grid (ext3 rcut g)).
Proof.
  unfold neigh_bins, ext3, ext_grid, cell_of. destruct (bin_xyz g p) as [[b0 b1] b2]. destruct (g_num g) as [[n0 n1] n2].
  destruct (g_pbc g) as [[w0 w1] w2]. rewrite <- flat_map_grid. reflexivity.
Qed.

Lemma neigh_bins_valid rcut g p : Forall (fun b => b = -1 \/ 0 <= b < num_bins (g_num g)) (neigh_bins rcut g p).
Proof.
  rewrite neigh_bins_eq. apply Forall_forall. intros b Hb. apply in_map_iff in Hb as [t [<- _]]. unfold cell_of.
  destruct (in_boxb _ _) eqn:E; [right; apply flat_range, in_boxb_iff, E|left; reflexivity].
Qed.

(** One axis: the bin of a point within the cutoff is within reach. *)
Lemma axis_reach rcut size lo x y : (0 < size)%R -> (Rabs (x - y) < rcut)%R ->
  - axis_ext rcut size <= axis_bin x lo size - axis_bin y lo size <= axis_ext rcut size.
Proof.
  intros Hs Hd. unfold axis_bin, axis_ext.
  destruct (floorZ_spec ((x - lo) / size)) as [X1 X2]. destruct (floorZ_spec ((y - lo) / size)) as [Y1 Y2].
  destruct (ceilZ_spec (rcut / size)) as [_ E].
  assert (D : (- (rcut / size) < (x - lo) / size - (y - lo) / size < rcut / size)%R).
  { apply Rabs_def2 in Hd as [D1 D2].
    replace ((x - lo) / size - (y - lo) / size)%R with ((x - y) * / size)%R by (field; lra).
    assert (0 < / size)%R by (apply Rinv_0_lt_compat; exact Hs). unfold Rdiv. split; nra. }
  set (fx := floorZ ((x - lo) / size)) in *. set (fy := floorZ ((y - lo) / size)) in *. set (e := ceilZ (rcut / size)) in *.
  assert (A : (IZR (fx - fy) < IZR (e + 1))%R) by (rewrite minus_IZR, plus_IZR; lra).
  assert (B : (IZR (- (e + 1)) < IZR (fx - fy))%R) by (rewrite opp_IZR, minus_IZR, plus_IZR; lra).
  apply lt_IZR in A, B. lia.
Qed.

Lemma wrap_id w n b : 0 <= b < n -> axis_wrap w n b = b.
Proof.
  intros H. unfold axis_wrap. destruct w; [|reflexivity]. rewrite Z.rem_mod_nonneg by lia.
  replace (b + n) with (b + 1 * n) by lia. rewrite Z.mod_add by lia. apply Z.mod_small. lia.
Qed.

Lemma abs_le_dist a b c r : (0 < r)%R -> (a * a + b * b + c * c < r * r)%R ->
  (Rabs a < r)%R /\ (Rabs b < r)%R /\ (Rabs c < r)%R.
Proof.
  intros Hr H. assert (K : forall x, (x * x < r * r)%R -> (Rabs x < r)%R).
  { intros x Hx. apply Rabs_def1; nra. }
  repeat split; apply K; nra.
Qed.

(** * The search *)
Definition sizes_pos (s : vec) : Prop := (0 < vx s)%R /\ (0 < vy s)%R /\ (0 < vz s)%R.
Definition all_in_box (g : grid) (pos : list vec) : Prop := Forall (fun p => in_box (g_num g) (bin_xyz g p)) pos.

Lemma bin_reach rcut g p q : (0 < rcut)%R -> sizes_pos (g_size g) -> (dist2 q p < rcut * rcut)%R ->
  in_box (g_num g) (bin_xyz g q) -> In (flat (g_num g) (bin_xyz g q)) (neigh_bins rcut g p).
Proof.
  intros Hr [S0 [S1 S2]] Hd Hb. rewrite neigh_bins_eq.
  assert (D : (vx (vsub q p) * vx (vsub q p) + vy (vsub q p) * vy (vsub q p) + vz (vsub q p) * vz (vsub q p) < rcut * rcut)%R) by exact Hd.
  apply abs_le_dist in D as [D0 [D1 D2]]; [|exact Hr]. cbn [vsub vx vy vz fst snd] in D0, D1, D2.
  fold (vx q) (vy q) (vz q) (vx p) (vy p) (vz p) in D0, D1, D2.
  pose proof (axis_reach rcut (vx (g_size g)) (vx (g_min g)) _ _ S0 D0) as R0.
  pose proof (axis_reach rcut (vy (g_size g)) (vy (g_min g)) _ _ S1 D1) as R1.
  pose proof (axis_reach rcut (vz (g_size g)) (vz (g_min g)) _ _ S2 D2) as R2.
  unfold ext3. set (e0 := axis_ext rcut (vx _)) in *. set (e1 := axis_ext rcut (vy _)) in *. set (e2 := axis_ext rcut (vz _)) in *.
  unfold bin_xyz in *. set (q0 := axis_bin (vx q) _ _) in *. set (q1 := axis_bin (vy q) _ _) in *. set (q2 := axis_bin (vz q) _ _) in *.
  set (p0 := axis_bin (vx p) _ _) in *. set (p1 := axis_bin (vy p) _ _) in *. set (p2 := axis_bin (vz p) _ _) in *.
  apply in_map_iff. exists (q0 - p0, q1 - p1, q2 - p2). split.
  - destruct (g_num g) as [[n0 n1] n2] eqn:En. destruct (g_pbc g) as [[w0 w1] w2]. cbn [box_of].
    replace (p0 + (q0 - p0)) with q0 by lia. replace (p1 + (q1 - p1)) with q1 by lia. replace (p2 + (q2 - p2)) with q2 by lia.
    pose proof Hb as [B0 [B1 B2]]. rewrite !wrap_id by assumption. unfold cell_of.
    assert (in_boxb (n0, n1, n2) (q0, q1, q2) = true) as -> by (apply in_boxb_iff; exact Hb). reflexivity.
  - cbn [ext_grid]. apply grid3_in. rewrite !zrange_in. auto.
Qed.

Lemma search_ok_flat rcut g pos centre :
  Forall (fun p => 0 <= flat (g_num g) (bin_xyz g p) < num_bins (g_num g)) pos ->
  search rcut g pos centre =
  Ok (flat_map (hits rcut pos centre (map (fun p => flat (g_num g) (bin_xyz g p)) pos)) (neigh_bins rcut g centre)).
Proof.
  intros Hb. unfold search.
  destruct (build_spec (num_bins (g_num g)) (map (fun p => flat (g_num g) (bin_xyz g p)) pos)) as [heads [nexts [E _]]].
  { apply Forall_map. exact Hb. }
  rewrite E. cbn [bind fst snd]. eapply scan_bins_spec; [exact E|apply map_length|apply neigh_bins_valid].
Qed.

Lemma search_ok rcut g pos centre : all_in_box g pos ->
  search rcut g pos centre =
  Ok (flat_map (hits rcut pos centre (map (fun p => flat (g_num g) (bin_xyz g p)) pos)) (neigh_bins rcut g centre)).
Proof. intros Hb. apply search_ok_flat. eapply Forall_impl; [|exact Hb]. cbn. intros p Hp. apply flat_range. exact Hp. Qed.

Lemma hits_in rcut pos centre bins b m : In m (hits rcut pos centre bins b) <->
  b <> -1 /\ 0 <= m /\ nth_error bins (Z.to_nat m) = Some b /\
  exists q, arr_get pos m = Ok q /\ (1 / 1000 < dist2 q centre < rcut * rcut)%R.
Proof.
  unfold hits. destruct (Z.eqb_spec b (-1)) as [E|E].
  - split; [intros []|]. intros [H _]. contradiction.
  - rewrite filter_In, <- in_rev, members_in, Z.sub_0_r. split.
    + intros [[H1 H2] H3]. destruct (arr_get pos m) as [q|] eqn:G; [|discriminate]. unfold in_shell in H3.
      apply andb_true_iff in H3 as [H3 H4]. rewrite Rltb_true in H3, H4. repeat split; try assumption. exists q. auto.
    + intros [H1 [H2 [H3 [q [H4 [H5 H6]]]]]]. split; [auto|]. rewrite H4. unfold in_shell. apply andb_true_iff.
      rewrite !Rltb_true. auto.
Qed.

Lemma arr_get_In {A} (l : list A) i x : arr_get l i = Ok x -> In x l.
Proof. unfold arr_get, get. destruct (i <? 0); [discriminate|]. destruct (nth_error l (Z.to_nat i)) eqn:E; [|discriminate]. intros [= <-]. eapply nth_error_In, E. Qed.
Lemma arr_get_nth {A} (l : list A) i x : arr_get l i = Ok x <-> 0 <= i /\ nth_error l (Z.to_nat i) = Some x.
Proof.
  unfold arr_get, get. destruct (Z.ltb_spec i 0); [split; [discriminate|lia]|].
  destruct (nth_error l (Z.to_nat i)) eqn:E; split.
  - intros [= ->]. auto.
  - intros [_ [= ->]]. reflexivity.
  - discriminate.
  - intros [_ ?]. discriminate.
Qed.

Lemma search_exact rcut g pos centre : (0 < rcut)%R -> sizes_pos (g_size g) -> all_in_box g pos ->
  exists l, search rcut g pos centre = Ok l /\
    forall m, In m l <-> exists q, arr_get pos m = Ok q /\ (1 / 1000 < dist2 q centre < rcut * rcut)%R.
Proof.
  intros Hr Hs Hb. rewrite search_ok by exact Hb. eexists. split; [reflexivity|]. intros m. rewrite in_flat_map. split.
  - intros [b [_ H]]. apply hits_in in H as [_ [_ [_ H]]]. exact H.
  - intros [q [G [D1 D2]]]. pose proof (arr_get_In _ _ _ G) as Hin.
    assert (Hq : in_box (g_num g) (bin_xyz g q)) by (unfold all_in_box in Hb; rewrite Forall_forall in Hb; auto).
    exists (flat (g_num g) (bin_xyz g q)). split; [apply bin_reach; assumption|].
    apply hits_in. pose proof (flat_range _ _ Hq). apply arr_get_nth in G as G'. destruct G' as [G1 G2].
    split; [lia|]. split; [exact G1|]. split; [rewrite nth_error_map, G2; reflexivity|]. exists q. auto.
Qed.

(** A failing search: some position has no bin. *)
Lemma search_bad rcut g pos centre :
  ~ Forall (fun p => 0 <= flat (g_num g) (bin_xyz g p) < num_bins (g_num g)) pos ->
  search rcut g pos centre = Err IndexError.
Proof. intros H. unfold search. rewrite build_bad; [reflexivity|]. rewrite Forall_map. exact H. Qed.

(** * No repetitions *)
Lemma wrap_inj w n e b i i' : (w = true -> 2 * e + 1 <= n) -> 0 <= b < n -> - e <= i <= e -> - e <= i' <= e ->
  axis_wrap w n (b + i) = axis_wrap w n (b + i') -> i = i'.
Proof.
  intros Hw Hb Hi Hi'. unfold axis_wrap. destruct w; [|lia]. specialize (Hw eq_refl).
  rewrite !Z.rem_mod_nonneg by lia. intros E.
  pose proof (Z.div_mod (b + i + n) n). pose proof (Z.div_mod (b + i' + n) n).
  rewrite E in H. set (u := (b + i + n) / n) in *. set (v := (b + i' + n) / n) in *.
  assert (D : i - i' = n * (u - v)) by lia. assert (u = v \/ u <= v - 1 \/ v <= u - 1) as [K|[K|K]] by lia; nia.
Qed.

Definition wide_enough (rcut : R) (g : grid) : Prop :=
  let '(e0, e1, e2) := ext3 rcut g in let '(n0, n1, n2) := g_num g in let '(w0, w1, w2) := g_pbc g in
  (w0 = true -> 2 * e0 + 1 <= n0) /\ (w1 = true -> 2 * e1 + 1 <= n1) /\ (w2 = true -> 2 * e2 + 1 <= n2).

Lemma flat_map_map {A B C} (g : B -> list C) (f : A -> B) l : flat_map g (map f l) = flat_map (fun x => g (f x)) l.
Proof. induction l as [|x r IH]; [reflexivity|]. cbn. rewrite IH. reflexivity. Qed.

Lemma hits_nodup rcut pos centre bins b : NoDup (hits rcut pos centre bins b).
Proof. unfold hits. destruct (b =? -1); [constructor|]. apply NoDup_filter, NoDup_rev, members_nodup. Qed.

Lemma search_nodup rcut g pos centre l : all_in_box g pos -> in_box (g_num g) (bin_xyz g centre) ->
  wide_enough rcut g -> search rcut g pos centre = Ok l -> NoDup l.
Proof.
  intros Hb Hc Hw H. rewrite search_ok in H by exact Hb.
  apply (f_equal (fun r => match r with Ok l => l | Err _ => [] end)) in H. cbv beta iota in H. subst l.
  rewrite neigh_bins_eq, flat_map_map. apply flat_map_nodup.
  - destruct (ext3 rcut g) as [[e0 e1] e2]. apply grid3_nodup; apply zrange_nodup.
  - intros. apply hits_nodup.
  - intros t t' m Ht Ht' Hm Hm'. apply hits_in in Hm as [Hm1 [_ [Hm2 _]]]. apply hits_in in Hm' as [Hm1' [_ [Hm2' _]]].
    assert (E : cell_of (g_num g) (box_of (g_num g) (g_pbc g) (bin_xyz g centre) t) = cell_of (g_num g) (box_of (g_num g) (g_pbc g) (bin_xyz g centre) t')) by congruence.
    unfold cell_of in E, Hm1, Hm1'.
    destruct (in_boxb (g_num g) (box_of (g_num g) (g_pbc g) (bin_xyz g centre) t)) eqn:B; [|congruence].
    destruct (in_boxb (g_num g) (box_of (g_num g) (g_pbc g) (bin_xyz g centre) t')) eqn:B'; [|congruence].
    apply in_boxb_iff in B, B'. apply flat_inj in E; [|exact B|exact B'].
    unfold wide_enough in Hw. destruct (ext3 rcut g) as [[e0 e1] e2]. destruct (g_num g) as [[n0 n1] n2]. destruct (g_pbc g) as [[w0 w1] w2].
    destruct (bin_xyz g centre) as [[b0 b1] b2]. destruct t as [[i j] k], t' as [[i' j'] k']. cbn [box_of ext_grid] in *.
    apply grid3_in in Ht, Ht'. rewrite !zrange_in in Ht, Ht'. destruct Ht as [T0 [T1 T2]], Ht' as [U0 [U1 U2]].
    destruct Hw as [W0 [W1 W2]]. destruct Hc as [C0 [C1 C2]]. injection E as E0 E1 E2.
    apply wrap_inj with (e := e0) in E0; [|assumption..]. apply wrap_inj with (e := e1) in E1; [|assumption..]. apply wrap_inj with (e := e2) in E2; [|assumption..].
    congruence.
Qed.
