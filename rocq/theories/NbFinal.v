(** The neighbour-search lemmas in the form of the property theorems. *)
From Verif Require Import Vec SeSpec NbModel NbSpec NbMlffModel NbMlffSpec StructProofs TextProofs NbListProofs NbSearchProofs NbGeomProofs NbProofs NbDupProofs NbMlffProofs NbGlue NbWitness.
Open Scope Z_scope.

Lemma centred_range s i : 0 < s -> (fst (scale_range s) <= i <= snd (scale_range s) <-> centred s i).
Proof.
  intros Hs. destruct (scale_range_spec s Hs) as [L [Z0 [O E]]]. unfold centred.
  destruct (Z.Even_or_Odd s) as [He|Ho]; [specialize (E He)|specialize (O Ho)].
  - destruct He as [k Hk]. lia.
  - destruct Ho as [k Hk]. lia.
Qed.

Lemma centred_facts s : 0 < s -> centred s 0 /\ (Z.Odd s -> forall i, centred s i -> centred s (- i)).
Proof. intros Hs. unfold centred. split; [lia|]. intros [k Hk] i. lia. Qed.

Lemma supercell_final s0 s1 s2 c : 0 < s0 -> 0 < s1 -> 0 < s2 -> length (numbers c) = length (coords c) ->
  exists sup ts, make_supercell s0 s1 s2 c = Ok sup /\
    NoDup ts /\ Z.of_nat (length ts) = s0 * s1 * s2 /\
    (forall i j k, In (i, j, k) ts <-> centred s0 i /\ centred s1 j /\ centred s2 k) /\
    length (coords sup) = (length ts * length (coords c))%nat /\ length (numbers sup) = length (coords sup) /\
    (forall q t a x z, nth_error ts q = Some t -> nth_error (coords c) a = Some x -> nth_error (numbers c) a = Some z ->
       nth_error (coords sup) (q * length (coords c) + a) = Some (vadd x (lattice_vec c t)) /\
       nth_error (numbers sup) (q * length (coords c) + a) = Some z) /\
    bA sup = vscale (IZR s0) (bA c) /\ bB sup = vscale (IZR s1) (bB c) /\ bC sup = vscale (IZR s2) (bC c).
Proof.
  intros P0 P1 P2 Hn. rewrite make_supercell_ok by assumption. eexists. exists (shifts3 s0 s1 s2). split; [reflexivity|].
  cbn [coords numbers bA bB bC].
  split; [apply shifts3_nodup|]. split; [apply shifts3_length; assumption|]. split.
  { intros i j k. rewrite shifts3_in, !centred_range by assumption. reflexivity. }
  split; [apply copies_length|]. split.
  { rewrite copies_length, (flat_map_const_length (fun _ : Z * Z * Z => numbers c) (length (numbers c))) by reflexivity. rewrite Hn. reflexivity. }
  split; [|auto]. intros q t a x z Hq Hx Hz. split; [apply copies_get; assumption|].
  assert (a < length (coords c))%nat by (apply nth_error_Some; congruence).
  rewrite (flat_map_nth (fun _ => numbers c) (length (coords c)) _ q a t); [exact Hz|intros _; exact Hn|exact Hq|assumption].
Qed.

Lemma origin_final s0 s1 s2 c sup : 0 < s0 -> 0 < s1 -> 0 < s2 -> length (numbers c) = length (coords c) ->
  make_supercell s0 s1 s2 c = Ok sup ->
  exists i j k, origin sup = lattice_vec c (i, j, k) /\ centred s0 i /\ centred s1 j /\ centred s2 k /\
    (forall i', centred s0 i' -> i <= i') /\ (forall j', centred s1 j' -> j <= j') /\ (forall k', centred s2 k' -> k <= k').
Proof.
  intros P0 P1 P2 Hn H. rewrite make_supercell_ok in H by assumption.
  apply (f_equal (fun r => match r with Ok l => l | Err _ => sup end)) in H. cbv beta iota in H. subst sup.
  exists (fst (scale_range s0)), (fst (scale_range s1)), (fst (scale_range s2)). split; [reflexivity|].
  rewrite <- !centred_range by assumption.
  destruct (scale_range_spec s0 P0) as [L0 _]. destruct (scale_range_spec s1 P1) as [L1 _]. destruct (scale_range_spec s2 P2) as [L2 _].
  repeat split; try lia; intros x Hx; rewrite <- centred_range in Hx by assumption; lia.
Qed.

Lemma owned_final s0 s1 s2 c sup : 0 < s0 -> 0 < s1 -> 0 < s2 -> Z.Odd s0 -> Z.Odd s1 -> Z.Odd s2 ->
  length (numbers c) = length (coords c) -> make_supercell s0 s1 s2 c = Ok sup ->
  mapM (arr_get (coords sup)) (owned_atom_idxs s0 s1 s2 (length (coords c))) = Ok (coords c) /\
  mapM (arr_get (numbers sup)) (owned_atom_idxs s0 s1 s2 (length (coords c))) = Ok (numbers c).
Proof.
  intros P0 P1 P2 O0 O1 O2 Hn H. rewrite make_supercell_ok in H by assumption.
  apply (f_equal (fun r => match r with Ok l => l | Err _ => sup end)) in H. cbv beta iota in H. subst sup. cbn [coords numbers].
  assert (G : forall A (all l : list A) k, (forall i x, nth_error l i = Some x -> arr_get all (prim_cell_idx s0 s1 s2 * Z.of_nat (length (coords c)) + Z.of_nat (k + i)) = Ok x) ->
    mapM (arr_get all) (map (fun i => prim_cell_idx s0 s1 s2 * Z.of_nat (length (coords c)) + Z.of_nat i) (seq k (length l))) = Ok l).
  { clear. intros A all l. induction l as [|x r IH]; intros k Hk; [reflexivity|]. cbn [length seq map mapM].
    rewrite <- (Nat.add_0_r k) at 1. rewrite (Hk 0%nat x eq_refl). cbn [bind]. rewrite IH; [reflexivity|].
    intros i y Hy. rewrite <- (Hk (S i) y Hy). do 2 f_equal. f_equal. lia. }
  unfold owned_atom_idxs. split.
  - apply G. intros i x Hx. apply owned_coords; assumption.
  - pose proof (G Z (flat_map (fun _ => numbers c) (shifts3 s0 s1 s2)) (numbers c) 0%nat) as G2. rewrite Hn in G2. apply G2. intros i z Hz. cbn [Nat.add].
    destruct (prim_cell_is_zero s0 s1 s2 P0 P1 P2 O0 O1 O2) as [Q0 Q].
    apply arr_get_nth.
    assert (0 <= prim_cell_idx s0 s1 s2 * Z.of_nat (length (coords c))) by (apply Z.mul_nonneg_nonneg; lia).
    split; [lia|]. rewrite Z2Nat.inj_add, Z2Nat.inj_mul, !Nat2Z.id by lia.
    rewrite (flat_map_nth (fun _ => numbers c) (length (coords c)) _ _ i _ (fun _ => Hn) Q); [exact Hz|].
    rewrite <- Hn. apply nth_error_Some. congruence.
Qed.

Lemma chains_final nbins bins : Forall (fun b => 0 <= b < nbins) bins ->
  exists heads nexts, build_lists nbins bins = Ok (heads, nexts) /\
    forall b, 0 <= b < nbins -> exists h l, arr_get heads b = Ok h /\ walk (S (length nexts)) nexts h = Ok l /\
      NoDup l /\ forall a, In a l <-> 0 <= a /\ nth_error bins (Z.to_nat a) = Some b.
Proof.
  intros H. destruct (build_spec nbins bins H) as [heads [nexts [E _]]]. exists heads, nexts. split; [exact E|].
  intros b Hb. destruct (chain_correct nbins bins heads nexts b E Hb) as [h [H1 H2]]. exists h, (rev (members b 0 bins)).
  split; [exact H1|]. split; [exact H2|]. split; [apply NoDup_rev, members_nodup|].
  intros a. rewrite <- in_rev, members_in, Z.sub_0_r. reflexivity.
Qed.

Lemma build_success nbins bins : (exists hn, build_lists nbins bins = Ok hn) <-> Forall (fun b => 0 <= b < nbins) bins.
Proof.
  split.
  - intros [hn H]. apply Forall_forall. intros x Hx. assert (D : (0 <= x < nbins) \/ ~ (0 <= x < nbins)) by lia. destruct D as [D|D]; [exact D|].
    rewrite build_bad in H; [discriminate|]. intros Hf. rewrite Forall_forall in Hf. auto.
  - intros H. destruct (build_spec nbins bins H) as [heads [nexts [E _]]]. eauto.
Qed.

Lemma in_range_final s0 s1 s2 sizes pbc c sup p : 0 < s0 -> 0 < s1 -> 0 < s2 -> positive3 sizes ->
  length (numbers c) = length (coords c) -> wrapped c -> faces_positive c ->
  make_supercell s0 s1 s2 c = Ok sup -> In p (coords sup) ->
  let g := make_grid sizes pbc sup in
  let '(b0, b1, b2) := bin_xyz g p in let '(n0, n1, n2) := g_num g in
  0 <= b0 < n0 /\ 0 <= b1 < n1 /\ 0 <= b2 < n2.
Proof.
  intros P0 P1 P2 Hs Hn Hw Hf H Hp. cbv zeta.
  pose proof (box_point_in sizes pbc sup p Hs (faces_fit s0 s1 s2 c sup sizes P0 P1 P2 Hn Hf H)
    (supercell_box_point s0 s1 s2 c sup p P0 P1 P2 Hn Hw H Hp)) as K.
  destruct (bin_xyz _ p) as [[b0 b1] b2]. destruct (g_num _) as [[n0 n1] n2]. exact K.
Qed.

Lemma exact_final rcut sizes pbc c : (0 < rcut)%R -> positive3 sizes -> proper c -> wrapped c -> faces_positive c ->
  exists sup lists, neighbor_lists rcut sizes pbc c = Ok (sup, lists) /\ length lists = length (coords c) /\
    forall i xi, nth_error (coords c) i = Some xi -> exists l, nth_error lists i = Some l /\
      forall m, In m l <-> 0 <= m /\ exists p, nth_error (coords sup) (Z.to_nat m) = Some p /\ (1 / 1000 < dist2 p xi < rcut * rcut)%R.
Proof.
  intros Hr Hs Hp Hw Hf.
  destruct (neighbor_lists_spec rcut sizes pbc c Hr Hs Hp Hw (faces_fit_scaled rcut sizes pbc c Hr Hp Hf)) as [sup [lists [E [Hlen [HS [Hb HI]]]]]].
  exists sup, lists. split; [exact E|]. split; [exact Hlen|]. intros i xi Hx. destruct (HI i xi Hx) as [l [Hl [_ [HSr _]]]]. exists l. split; [exact Hl|].
  destruct (search_exact rcut (make_grid sizes pbc sup) (coords sup) xi Hr Hs Hb) as [l' [E' HE]]. rewrite E' in HSr. injection HSr as ->.
  intros m. rewrite HE. split.
  - intros [q [Hq Hd]]. apply arr_get_nth in Hq as [Hm Hq]. split; [exact Hm|]. exists q. auto.
  - intros [Hm [q [Hq Hd]]]. exists q. split; [apply arr_get_nth; auto|exact Hd].
Qed.

Lemma periodic_final rcut sizes pbc c : (0 < rcut)%R -> positive3 sizes -> proper c -> wrapped c -> faces_positive c ->
  exists sup lists, neighbor_lists rcut sizes pbc c = Ok (sup, lists) /\ length lists = length (coords c) /\
    forall i l, nth_error lists i = Some l ->
      (forall m, In m l -> exists j t xj, 0 <= m /\ m mod Z.of_nat (length (coords c)) = Z.of_nat j /\ is_neighbour rcut pbc c i j t /\
         nth_error (coords c) j = Some xj /\ nth_error (coords sup) (Z.to_nat m) = Some (vadd xj (lattice_vec c t)) /\
         nth_error (numbers sup) (Z.to_nat m) = nth_error (numbers c) j) /\
      (forall j t, is_neighbour rcut pbc c i j t -> exists m xj, In m l /\ m mod Z.of_nat (length (coords c)) = Z.of_nat j /\
         nth_error (coords c) j = Some xj /\ nth_error (coords sup) (Z.to_nat m) = Some (vadd xj (lattice_vec c t))).
Proof.
  intros Hr Hs Hp Hw Hf.
  destruct (neighbor_lists_spec rcut sizes pbc c Hr Hs Hp Hw (faces_fit_scaled rcut sizes pbc c Hr Hp Hf)) as [sup [lists [E [Hlen [HS [Hb HI]]]]]].
  exists sup, lists. split; [exact E|]. split; [exact Hlen|]. intros i l Hl.
  assert (Hil : (i < length (coords c))%nat) by (rewrite <- Hlen; apply nth_error_Some; congruence).
  destruct (nth_error (coords c) i) as [xi|] eqn:Ex; [|apply nth_error_None in Ex; lia].
  destruct (HI i xi Ex) as [l' [Hl' [_ [_ [Hsound Hcomp]]]]]. rewrite Hl in Hl'. injection Hl' as <-.
  assert (MM : forall m, 0 <= m -> m mod Z.of_nat (length (coords c)) = Z.of_nat (Z.to_nat m mod length (coords c))).
  { intros m Hm. rewrite <- (Z2Nat.id m) at 1 by exact Hm. rewrite <- Nat2Z.inj_mod. reflexivity. }
  split.
  - intros m Hm. destruct (Hsound m Hm) as [Hm0 [_ [j [t [Ej [Hnb [[xj [Hxj Hc]] Hnum]]]]]]]. exists j, t, xj.
    rewrite MM by exact Hm0. rewrite Ej. auto 10.
  - intros j t Hnb. pose proof Hnb as [_ [xj [_ [Hxj _]]]]. destruct (Hcomp j t xj Hnb Hxj) as [m [Hm [Hm0 [Ej Hc]]]]. exists m, xj.
    rewrite MM by exact Hm0. rewrite Ej. auto.
Qed.

Lemma symmetric_final rcut sizes pbc c sup lists : (0 < rcut)%R -> positive3 sizes -> proper c -> wrapped c -> faces_positive c ->
  neighbor_lists rcut sizes pbc c = Ok (sup, lists) ->
  forall i l m p, nth_error lists i = Some l -> In m l -> nth_error (coords sup) (Z.to_nat m) = Some p ->
  exists j l' m' p' xi xj, m mod Z.of_nat (length (coords c)) = Z.of_nat j /\ nth_error lists j = Some l' /\ In m' l' /\
    m' mod Z.of_nat (length (coords c)) = Z.of_nat i /\ nth_error (coords sup) (Z.to_nat m') = Some p' /\
    nth_error (coords c) i = Some xi /\ nth_error (coords c) j = Some xj /\ vsub p' xj = vscale (-1) (vsub p xi).
Proof.
  intros Hr Hs Hp Hw Hf H i l m p Hl Hm Hmp.
  destruct (periodic_final rcut sizes pbc c Hr Hs Hp Hw Hf) as [sup' [lists' [E [Hlen HI]]]]. rewrite H in E. injection E as <- <-.
  destruct (HI i l Hl) as [Hsound _]. destruct (Hsound m Hm) as [j [t [xj [Hm0 [Ej [Hnb [Hxj [Hc _]]]]]]]].
  destruct t as [[a b] d]. rewrite Hmp in Hc. injection Hc as ->.
  assert (Hjl : (j < length lists)%nat) by (rewrite Hlen; apply nth_error_Some; congruence).
  destruct (nth_error lists j) as [l'|] eqn:El'; [|apply nth_error_None in El'; lia].
  destruct (HI j l' El') as [_ Hcomp]. destruct (Hcomp i _ (is_neighbour_sym _ _ _ _ _ _ _ _ Hnb)) as [m' [xi [Hm' [Ei [Hxi Hc']]]]].
  exists j, l', m', (vadd xi (lattice_vec c (- a, - b, - d))), xi, xj. repeat split; try assumption. apply lattice_opp.
Qed.

Lemma nodup_default_final rcut pbc c : (0 < rcut)%R -> proper c -> wrapped c -> faces_positive c -> aligned_pbc pbc c ->
  exists sup lists, neighbor_lists_default rcut pbc c = Ok (sup, lists) /\ length lists = length (coords c) /\ Forall (@NoDup Z) lists.
Proof.
  intros Hr Hp Hw Hf Ha.
  destruct (periodic_final rcut (half_bins rcut) pbc c Hr (half_bins_pos rcut Hr) Hp Hw Hf) as [sup [lists [E [Hlen _]]]].
  exists sup, lists. split; [exact E|]. split; [exact Hlen|]. eapply default_nodup; eassumption.
Qed.

Lemma nodup_bins_final rcut sizes pbc c sup lists : (0 < rcut)%R -> positive3 sizes -> proper c -> wrapped c -> faces_positive c ->
  neighbor_lists rcut sizes pbc c = Ok (sup, lists) ->
  (let '(n0, n1, n2) := g_num (make_grid sizes pbc sup) in let '(w0, w1, w2) := pbc in
   (w0 = true -> 2 * axis_ext rcut (vx sizes) + 1 <= n0) /\ (w1 = true -> 2 * axis_ext rcut (vy sizes) + 1 <= n1) /\
   (w2 = true -> 2 * axis_ext rcut (vz sizes) + 1 <= n2)) ->
  Forall (@NoDup Z) lists.
Proof. intros Hr Hs Hp Hw Hf H Hwide. eapply lists_nodup; try eassumption. Qed.

Lemma aligned_full c : aligned_pbc (true, true, true) c.
Proof. intros f _. repeat split; discriminate. Qed.

Lemma max_final lists : (forall l, In l lists -> Z.of_nat (length l) <= max_num_neigh lists) /\
  (lists <> [] -> exists l, In l lists /\ Z.of_nat (length l) = max_num_neigh lists).
Proof.
  unfold max_num_neigh. destruct (max_len_spec lists 0) as [_ [H1 H2]]. split; [exact H1|]. intros Hne.
  destruct H2 as [H2|[l [Hl H2]]]; [|exists l; auto]. destruct lists as [|l r]; [contradiction|].
  exists l. split; [left; reflexivity|]. specialize (H1 l (or_introl eq_refl)). lia.
Qed.

Lemma typed_final ns zc zn lists : (length lists <= length ns)%nat -> Forall (Forall (fun m => 0 <= m < Z.of_nat (length ns))) lists ->
  exists k, max_num_neigh_typed ns zc zn lists = Ok k /\
    (forall i l, nth_error lists i = Some l -> nth_error ns i = Some zc -> Z.of_nat (typed_count ns zn l) <= k) /\
    (k = 0 \/ exists i l, nth_error lists i = Some l /\ nth_error ns i = Some zc /\ k = Z.of_nat (typed_count ns zn l)).
Proof.
  intros Hl Hr. destruct (max_typed_spec ns zc zn lists 0 0) as [k [E [_ [H1 H2]]]]; [lia|lia|exact Hr|]. exists k. auto.
Qed.

Lemma last_overflow sup pidx lists last umax : (length lists < length (numbers sup))%nat -> 0 <= umax < Z.of_nat (length last) ->
  find_info4mlff sup pidx (lists ++ [last]) umax = Err IndexError.
Proof.
  intros Hn Hu. unfold find_info4mlff.
  destruct (mapM_total (fun ii => arr_get (numbers sup) (Z.of_nat ii)) (seq 0 (length (lists ++ [last])))) as [ts ->].
  { intros i Hi. apply in_seq in Hi. rewrite app_length in Hi. cbn in Hi. apply arr_get_ok. lia. }
  cbn [bind]. rewrite map_app. cbn [map]. rewrite write_rows_last_bad; [reflexivity|lia|lia| |rewrite map_length; lia].
  rewrite repeat_length, map_length, app_length. cbn [length]. rewrite Z2Nat.id by (apply Z.mul_nonneg_nonneg; lia). f_equal. lia.
Qed.

Lemma middle_overflow : exists sup info, find_info4mlff sup 0 [[1; 1; 1]; []] 2 = Ok info /\
  i_numneigh info = [3; 0] /\ i_firstneigh info = [1; 1; 1; -1].
Proof. exists unit_cell. eexists. split; [reflexivity|]. split; reflexivity. Qed.

(** Displacements component by component. *)
Lemma triple_coord v k : (k < 3)%nat -> nth_error (triple v) k = Some (coord k v).
Proof. intros H. destruct k as [|[|[|k]]]; try reflexivity. lia. Qed.
Lemma arrays_coord :
  forall rcut sizes pbc c (umax : nat), (0 < rcut)%R -> positive3 sizes -> proper c -> wrapped c -> faces_positive c ->
  exists sup lists, neighbor_lists rcut sizes pbc c = Ok (sup, lists) /\ length lists = length (coords c) /\
    (max_num_neigh lists <= Z.of_nat umax ->
     exists info, find_info4mlff sup (prim_index rcut pbc c) lists (Z.of_nat umax) = Ok info /\
       i_types info = numbers c /\
       forall i l j, nth_error lists i = Some l -> (j < umax)%nat ->
         nth_error (i_numneigh info) i = Some (Z.of_nat (length l)) /\
         if (j <? length l)%nat
         then exists b t xi xb, is_neighbour rcut pbc c i b t /\ nth_error (coords c) i = Some xi /\ nth_error (coords c) b = Some xb /\
                nth_error (i_firstneigh info) (i * umax + j) = Some (Z.of_nat b) /\
                forall k, (k < 3)%nat -> nth_error (i_relative info) ((i * umax + j) * 3 + k) = Some (coord k (vsub (vadd xb (lattice_vec c t)) xi))
         else nth_error (i_firstneigh info) (i * umax + j) = Some (-1) /\
              forall k, (k < 3)%nat -> nth_error (i_relative info) ((i * umax + j) * 3 + k) = Some 0%R).
Proof.
  intros rcut sizes pbc c umax H1 H2 H3 H4 H5. destruct (arrays_spec rcut sizes pbc c umax H1 H2 H3 H4 H5) as (sup & lists & E & L & H). exists sup, lists. split; [exact E|]. split; [exact L|].
  intros Hm. destruct (H Hm) as (info & EI & IT & HS). exists info. split; [exact EI|]. split; [exact IT|]. intros i l j Hl Hj. destruct (HS i l j Hl Hj) as [HN HB]. split; [exact HN|].
  destruct (j <? length l)%nat; [|exact HB]. destruct HB as (b & t & xi & xb & Hn & Ei & Eb & Ef & Er). exists b, t, xi, xb. repeat split; try assumption. intros k Hk. rewrite (Er k Hk). apply triple_coord. exact Hk.
Qed.
Lemma find_info_coord :
  forall sup pidx lists (umax : nat) (cs : list vec),
  length cs = length lists -> (length lists <= length (numbers sup))%nat ->
  (forall i x, nth_error cs i = Some x -> arr_get (coords sup) (Z.of_nat i + pidx * Z.of_nat (length lists)) = Ok x) ->
  Forall (Forall (fun m => 0 <= m < Z.of_nat (length (coords sup)))) lists ->
  Forall (fun l => (length l <= umax)%nat) lists ->
  exists info, find_info4mlff sup pidx lists (Z.of_nat umax) = Ok info /\
    i_ilist info = map Z.of_nat (seq 0 (length lists)) /\ i_nghost info = 0 /\
    i_numneigh info = map (fun l => Z.of_nat (length l)) lists /\
    i_types info = firstn (length lists) (numbers sup) /\
    length (i_firstneigh info) = (length lists * umax)%nat /\
    length (i_relative info) = (length lists * umax * 3)%nat /\
    forall i l x j, nth_error lists i = Some l -> nth_error cs i = Some x -> (j < umax)%nat ->
      match nth_error l j with
      | Some m => nth_error (i_firstneigh info) (i * umax + j) = Some (m mod Z.of_nat (length lists)) /\
                  exists q, arr_get (coords sup) m = Ok q /\ forall k, (k < 3)%nat ->
                    nth_error (i_relative info) ((i * umax + j) * 3 + k) = Some (coord k (vsub q x))
      | None => nth_error (i_firstneigh info) (i * umax + j) = Some (-1) /\
                forall k, (k < 3)%nat -> nth_error (i_relative info) ((i * umax + j) * 3 + k) = Some 0%R
      end.
Proof.
  intros sup pidx lists umax cs H1 H2 H3 H4 H5. destruct (find_info_spec sup pidx lists umax cs H1 H2 H3 H4 H5) as (info & EI & I1 & I2 & I3 & I4 & I5 & I6 & HS). exists info. repeat (split; [assumption|]).
  intros i l x j Hl Hx Hj. specialize (HS i l x j Hl Hx Hj). destruct (nth_error l j) as [m|]; [|exact HS]. destruct HS as [HF (q & Eq & Er)]. split; [exact HF|]. exists q. split; [exact Eq|]. intros k Hk. rewrite (Er k Hk). apply triple_coord. exact Hk.
Qed.

(** Which factors are possible. *)
Lemma scale_range_none s : s <= 0 -> zrange (fst (scale_range s)) (snd (scale_range s)) = [].
Proof.
  intros Hs. apply length_zero_iff_nil. rewrite NbListProofs.zrange_length. cut (snd (scale_range s) - fst (scale_range s) + 1 <= 0); [lia|].
  unfold scale_range. pose proof (Z.quot_rem' s 2) as Q. destruct (Z.eqb_spec (Z.rem s 2) 0) as [E|E]; cbn [fst snd].
  - rewrite Z.quot_opp_l by lia. lia.
  - pose proof (Z.quot_rem' (s - 1) 2) as Q1. assert (s <> 0) by (intros ->; now apply E).
    assert (- 2 < Z.rem (s - 1) 2 <= 0) by (apply (Z.rem_bound_pos_neg (s - 1) 2); lia). rewrite Z.quot_opp_l by lia. lia.
Qed.
Lemma supercell_defined s0 s1 s2 c : length (numbers c) = length (coords c) -> coords c <> [] ->
  (exists sup, make_supercell s0 s1 s2 c = Ok sup) <-> (0 < s0 /\ 0 < s1 /\ 0 < s2) \/ s0 * s1 * s2 = 0.
Proof.
  intros Hn Hc. assert (0 < Z.of_nat (length (coords c))) as Hl by (destruct (coords c); [contradiction|cbn [length]; lia]).
  assert (s0 <= 0 \/ s1 <= 0 \/ s2 <= 0 -> shifts3 s0 s1 s2 = []) as Hs.
  { intros H. apply length_zero_iff_nil. rewrite NbListProofs.shifts3_grid, StructProofs.grid3_length.
    destruct H as [H|[H|H]]; rewrite (scale_range_none _ H); cbn [length]; lia. }
  split.
  - intros [sup H]. destruct (Z.le_gt_cases s0 0) as [H0|H0]; [|destruct (Z.le_gt_cases s1 0) as [H1|H1]; [|destruct (Z.le_gt_cases s2 0) as [H2|H2]; [|left; lia]]];
      right; revert H; unfold make_supercell; rewrite Hs by auto; cbn [flat_map length];
      destruct (_ =? num_atoms c * s0 * s1 * s2); cbn [andb]; try discriminate;
      unfold num_atoms; destruct (Z.eqb_spec (Z.of_nat 0) (Z.of_nat (length (coords c)) * s0 * s1 * s2)); [|discriminate| |discriminate| |discriminate]; intros _; nia.
  - intros [(H0 & H1 & H2)|H].
    + eexists. apply NbListProofs.make_supercell_ok; auto.
    + eexists. unfold make_supercell. rewrite Hs by nia. rewrite H. cbn [Z.to_nat repeat concat flat_map length].
      assert (num_atoms c * s0 * s1 * s2 = 0) as -> by (unfold num_atoms; replace (Z.of_nat (length (coords c)) * s0 * s1 * s2) with (Z.of_nat (length (coords c)) * (s0 * s1 * s2)) by ring; rewrite H; ring).
      reflexivity.
Qed.
