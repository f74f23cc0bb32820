(** Neighbour tables of periodic structures. *)
From Verif Require Import Arr Vec StructModel SiteIndexModel SeModel NeighModel NeighSpec StructProofs NeighProofs NeighCounts NeighPair NeighGlue.
From Verif Require Import StructSpec SiteIndexSpec SiteIndexProofs StructGlue NbGeomProofs.
From Coq Require Import ZifyBool.
Open Scope nat_scope.

(** *** All element pairs *)
Section All.
Context {P D : Type}.
Variables (dist : P -> P -> D) (leb : D -> D -> bool) (argsort : list D -> list nat) (zeroP : P) (zeroD : D).
Hypothesis Hleb : total_preorder leb.
Hypothesis Hsort : sorts leb argsort.
Variables (sup : list (Z * P)) (key : list nat) (rcut : D) (si : P -> nat).
Hypothesis Hiso : Forall (isolated dist leb sup rcut) key.
Hypothesis Hkey : key <> [].
Variable table : list (list Z * list D * list P).
Hypothesis Htable : key_neighs_info dist leb argsort zeroP zeroD sup key rcut = Ok table.
Notation irow := (index_row dist leb sup rcut si (si zeroP)).

Definition fits (nbr : Z) (m : nat) : Prop := forall c sel, In c key -> pair_neighbours dist leb sup rcut nbr c sel -> length sel <= m.

Lemma one_pair center nbr m : nbr <> 0%Z -> 0 < m -> fits nbr m ->
  exists rows, _get_nbrs_indices zeroP si table center nbr (Some m) = Ok rows /\ Forall2 (fun c row => irow c (nbr, m) row /\ length row = m) (centres_of sup center key) rows.
Proof.
  intros Hn Hm Hf. destruct (pair_all dist leb argsort zeroP zeroD Hleb Hsort (fun p _ => p) sup key rcut center nbr Hiso Hkey Hn) as (t & sels & real & E & F & W & _ & G).
  assert (t = table) by congruence. subst t. destruct (G si m) as [G1 _].
  assert (Hr : real <= m).
  { destruct (proj2 W) as [->|(s & Is & <-)]; [lia|]. apply In_nth_error in Is. destruct Is as (i & Hi). destruct (nth_error (centres_of sup center key) i) as [c|] eqn:K.
    - apply (Hf c s); [apply nth_error_In in K; apply filter_In in K; apply K|exact (forall2_nth _ _ _ F i c s K Hi)].
    - apply nth_error_None in K. assert (i < length sels) by (apply nth_error_Some; congruence). assert (X := forall2_len _ _ _ F). lia. }
  destruct (G1 Hr Hm) as (rows & Er & Fr). exists rows. split; [exact Er|]. clear E Er G G1. destruct W as [W _]. revert rows Fr. generalize (centres_of sup center key) F. clear F. intros cs F.
  induction F as [|c sel cs sels Hp F IH]; intros rows Fr; inversion Fr as [|? row ? rows' (vals & Fv & ->) Fr']; subst; [constructor|]. constructor; [|apply IH; [intros s Is; apply W; right; exact Is|exact Fr']].
  assert (Ws := W sel (or_introl eq_refl)). split.
  - exists sel, real, vals. split; [exact Hp|]. cbn [snd]. split; [lia|]. split; [exact Fv|reflexivity].
  - rewrite !app_length, !repeat_length. assert (X := forall2_len _ _ _ Fv). lia.
Qed.

Lemma zip_app_forall2 {A} (Q : A -> list nat -> Prop) (R : A -> list nat -> Prop) cs a b : Forall2 Q cs a -> Forall2 R cs b -> Forall2 (fun c r => exists x y, r = x ++ y /\ Q c x /\ R c y) cs (zip_app a b).
Proof.
  intros F. revert b. induction F as [|c x cs a H F IH]; intros b G; inversion G; subst; [constructor|]. cbn [zip_app]. constructor; [|apply IH; assumption]. eexists _, _. split; [reflexivity|split; assumption].
Qed.
Definition full_row (zws : list (Z * nat)) (c : nat) (row : list nat) : Prop :=
  exists parts, Forall2 (irow c) zws parts /\ row = concat parts.
Definition total (zws : list (Z * nat)) : nat := fold_right plus 0 (map snd zws).

Lemma total_app a zw : total (a ++ [zw]) = total a + snd zw.
Proof. unfold total. induction a as [|x a IH]; cbn in *; lia. Qed.
Lemma fold_zip cs : forall ps zws acc done, Forall2 (fun zw p => Forall2 (fun c row => irow c zw row /\ length row = snd zw) cs p) zws ps ->
  Forall2 (fun c row => full_row done c row /\ length row = total done) cs acc ->
  Forall2 (fun c row => full_row (done ++ zws) c row /\ length row = total (done ++ zws)) cs (fold_left zip_app ps acc).
Proof.
  intros ps zws acc done F. revert acc done. induction F as [|zw p zws ps H F IH]; intros acc done Ha; [rewrite app_nil_r; exact Ha|]. cbn [fold_left].
  replace (done ++ zw :: zws) with ((done ++ [zw]) ++ zws) by (rewrite <- app_assoc; reflexivity). apply IH.
  assert (Z := zip_app_forall2 _ _ _ _ _ Ha H). revert Z. generalize (zip_app acc p). clear. intros l Z. induction Z as [|c r cs l (x & y & -> & ((parts & Fp & ->) & L1) & Hy & L2) Z IH]; constructor; [|exact IH].
  split.
  - exists (parts ++ [y]). split; [apply Forall2_app; [exact Fp|constructor; [exact Hy|constructor]]|]. rewrite concat_app. cbn. rewrite app_nil_r. reflexivity.
  - rewrite app_length, L1, L2, total_app. reflexivity.
Qed.

Lemma enum_forall2 {A B} (f : nat * A -> result B) (Q : nat -> A -> B -> Prop) : forall (l : list A) k, (forall i a, nth_error l i = Some a -> exists b, f (k + i, a) = Ok b /\ Q (k + i) a b) ->
  exists bs, mapM f (combine (seq k (length l)) l) = Ok bs /\ length bs = length l /\ forall i a b, nth_error l i = Some a -> nth_error bs i = Some b -> Q (k + i) a b.
Proof.
  induction l as [|a l IH]; intros k H; [exists []; split; [reflexivity|split; [reflexivity|intros [|i] ? ? X; discriminate]]|]. cbn [length seq combine mapM].
  destruct (H 0 a eq_refl) as (b & Eb & Qb). rewrite Nat.add_0_r in Eb, Qb. rewrite Eb. cbn [bind]. destruct (IH (S k)) as (bs & Es & L & Qs).
  { intros i x Hx. destruct (H (S i) x Hx) as (y & Ey & Qy). exists y. replace (S k + i) with (k + S i) by lia. split; assumption. }
  rewrite Es. cbn [bind]. exists (b :: bs). split; [reflexivity|]. split; [cbn; lia|]. intros [|i] x y Hx Hy; cbn in Hx, Hy.
  - injection Hx as <-. injection Hy as <-. rewrite Nat.add_0_r. exact Qb.
  - replace (k + S i) with (S k + i) by lia. exact (Qs i x y Hx Hy).
Qed.

Lemma one_centre center zw zws : Forall (fun x => fst x <> 0%Z /\ 0 < snd x /\ fits (fst x) (snd x)) (zw :: zws) ->
  exists rows, bind (mapM (fun jn : nat * Z => bind (get (map snd (zw :: zws)) (fst jn)) (fun w => bind (_get_nbrs_indices zeroP si table center (snd jn) (Some w)) (fun l => Ok (w, l)))) (enumerate (map fst (zw :: zws)))) concat1 = Ok rows /\
  Forall2 (fun c row => full_row (zw :: zws) c row /\ length row = total (zw :: zws)) (centres_of sup center key) rows.
Proof.
  intros Hz. set (cs := centres_of sup center key). set (all := zw :: zws) in *.
  destruct (enum_forall2 (fun jn : nat * Z => bind (get (map snd all) (fst jn)) (fun w => bind (_get_nbrs_indices zeroP si table center (snd jn) (Some w)) (fun l => Ok (w, l))))
    (fun k z b => exists zw, nth_error all k = Some zw /\ fst b = snd zw /\ Forall2 (fun c row => irow c zw row /\ length row = snd zw) cs (snd b)) (map fst all) 0) as (bs & Eb & Lb & Qb).
  { intros i z Hi. rewrite nth_error_map in Hi. destruct (nth_error all i) as [x|] eqn:Ex; [|discriminate]. cbn in Hi. injection Hi as <-. rewrite Forall_forall in Hz. destruct (Hz x (nth_error_In _ _ Ex)) as (A1 & A2 & A3).
    destruct (one_pair center (fst x) (snd x) A1 A2 A3) as (rows & Er & Fr). exists (snd x, rows). cbn [fst snd Nat.add]. rewrite (get_some _ _ (snd x)) by (rewrite nth_error_map, Ex; reflexivity). cbn [bind]. rewrite Er. cbn [bind].
    split; [reflexivity|]. exists x. split; [exact Ex|]. split; [reflexivity|]. destruct x; exact Fr. }
  unfold enumerate. rewrite Eb. cbn [bind]. rewrite map_length in Lb.
  assert (F : Forall2 (fun zw b => fst b = snd zw /\ Forall2 (fun c row => irow c zw row /\ length row = snd zw) cs (snd b)) all bs).
  { clear Eb Hz. assert (Q' : forall i b, nth_error bs i = Some b -> exists zw, nth_error all i = Some zw /\ fst b = snd zw /\ Forall2 (fun c row => irow c zw row /\ length row = snd zw) cs (snd b)).
    { intros i b Hb. assert (i < length bs) by (apply nth_error_Some; congruence). destruct (nth_error all i) as [x|] eqn:Ex; [|apply nth_error_None in Ex; lia].
      destruct (Qb i (fst x) b) as (zw' & Ez & H1 & H2); [rewrite nth_error_map, Ex; reflexivity|exact Hb|]. cbn [Nat.add] in Ez. assert (zw' = x) by congruence. subst. exists x. split; [reflexivity|split; assumption]. }
    clear Qb. revert bs Lb Q'. generalize all. clear. intros al. induction al as [|x al IH]; intros [|b bs] Lb Q'; try discriminate; constructor.
    - destruct (Q' 0 b eq_refl) as (zw & Ez & H1 & H2). cbn in Ez. injection Ez as <-. split; assumption.
    - apply IH; [cbn in Lb; lia|]. intros i b' Hb. exact (Q' (S i) b' Hb). }
  destruct bs as [|[w0 p0] bs']; [discriminate|]. cbn [concat1].
  assert (C1 : forallb (fun wp : nat * list (list nat) => two_dim (fst wp) (snd wp)) ((w0, p0) :: bs') = true).
  { apply forallb_forall. intros [w p] Ip. assert (Hw : 0 < w).
    { clear - F Hz Ip. revert F Hz. generalize all. clear all. intros all F Hz. induction F as [|x b all bs [H1 H2] F IH]; [destruct Ip|]. inversion Hz as [|? ? (A1 & A2 & A3) Hr]; subst. destruct Ip as [->|Ip]; [cbn in H1; lia|exact (IH Ip Hr)]. }
    unfold two_dim. cbn [fst snd]. destruct p; [lia|reflexivity]. }
  assert (C2 : forallb (fun wp : nat * list (list nat) => length (snd wp) =? length p0) bs' = true).
  { assert (All : forall b, In b ((w0, p0) :: bs') -> length (snd b) = length cs).
    { clear - F. intros b Ib. induction F as [|x b' all' bs'' [H1 H2] F IH]; [destruct Ib|]. destruct Ib as [->|Ib]; [symmetry; exact (forall2_len _ _ _ H2)|exact (IH Ib)]. }
    apply forallb_forall. intros b Ib. rewrite (All b (or_intror Ib)). assert (X := All (w0, p0) (or_introl eq_refl)). cbn in X. apply Nat.eqb_eq. lia. }
  rewrite C1, C2. cbn [andb]. eexists. split; [reflexivity|]. unfold all in *. inversion F as [|? ? ? ? [H1 H2] F']; subst. cbn [snd] in H2.
  apply (fold_zip cs (map snd bs') zws p0 [zw]).
  - clear - F'. induction F' as [|x b l bs [G1 G2] F' IH]; constructor; assumption.
  - clear - H2. induction H2 as [|c row cs p [G1 G2] F IH]; constructor; [|exact IH]. split; [|unfold total; cbn; lia]. exists [row]. split; [constructor; [exact G1|constructor]|cbn; rewrite app_nil_r; reflexivity].
Qed.

Lemma all_pairs centers zw zws : centers <> [] -> Forall (fun x => fst x <> 0%Z /\ 0 < snd x /\ fits (fst x) (snd x)) (zw :: zws) ->
  exists rows, get_nbrs_indices zeroP si table centers (map fst (zw :: zws)) (Some (map snd (zw :: zws))) = Ok rows /\
  Forall2 (full_row (zw :: zws)) (flat_map (fun z => centres_of sup z key) centers) rows.
Proof.
  intros Hc Hz. unfold get_nbrs_indices.
  destruct (mapM_forall2_exists (fun c => bind (mapM (fun jn : nat * Z => bind (get (map snd (zw :: zws)) (fst jn)) (fun w => bind (_get_nbrs_indices zeroP si table c (snd jn) (Some w)) (fun l => Ok (w, l)))) (enumerate (map fst (zw :: zws)))) concat1)
    (fun center rows => Forall2 (fun c row => full_row (zw :: zws) c row /\ length row = total (zw :: zws)) (centres_of sup center key) rows) centers) as (parts & Ep & F).
  { intros center _. exact (one_centre center zw zws Hz). }
  rewrite Ep. cbn [bind]. destruct parts as [|p ps]; [inversion F; subst; contradiction|].
  assert (FF : Forall2 (fun c row => full_row (zw :: zws) c row /\ length row = total (zw :: zws)) (flat_map (fun z => centres_of sup z key) centers) (concat (p :: ps))).
  { clear - F. induction F as [|c rows cs parts H F IH]; [constructor|]. cbn [flat_map concat]. apply Forall2_app; assumption. }
  assert (Wd : widths_agree (p :: ps) = true).
  { unfold widths_agree. assert (All : forall r, In r (concat (p :: ps)) -> length r = total (zw :: zws)) by (clear - FF; intros r Ir; induction FF as [|c row cs rows [_ H] FF IH]; [destruct Ir|]; destruct Ir as [->|Ir]; [exact H|exact (IH Ir)]).
    destruct (concat (p :: ps)) as [|r rest]; [reflexivity|]. apply forallb_forall. intros x Ix. apply Nat.eqb_eq. rewrite (All x (or_intror Ix)), (All r (or_introl eq_refl)). reflexivity. }
  rewrite Wd. eexists. split; [reflexivity|]. clear - FF. induction FF as [|c row cs rows [H _] FF IH]; constructor; assumption.
Qed.
End All.

(** *** Real distances *)
Lemma Rleb_spec a b : Rleb a b = true <-> (a <= b)%R.
Proof. unfold Rleb. destruct (Rle_dec a b) as [H|H]; split; intros X; try assumption; try reflexivity; [discriminate|contradiction]. Qed.
Lemma Rleb_false a b : Rleb a b = false <-> (b < a)%R.
Proof. unfold Rleb. destruct (Rle_dec a b) as [H|H]; split; intros X; try reflexivity; [discriminate|lra|lra]. Qed.
Lemma Rleb_total : total_preorder Rleb.
Proof. split; [intros a b; rewrite !Rleb_spec; lra|intros a b c; rewrite !Rleb_spec; lra]. Qed.
Lemma vdist_norm2 p c : vdist p c = sqrt (dist2 p c).
Proof. unfold vdist, vnorm, dist2, norm2, dot. f_equal. ring. Qed.
Lemma dist2_nonneg p c : (0 <= dist2 p c)%R.
Proof. unfold dist2, norm2, dot. nra. Qed.
Lemma vdist_self p : vdist p p = 0%R.
Proof. rewrite vdist_norm2. replace (dist2 p p) with 0%R by vec_ring. apply sqrt_0. Qed.
Lemma vdist_pos p c : p <> c -> (0 < vdist p c)%R.
Proof.
  intros H. rewrite vdist_norm2. apply sqrt_lt_R0. destruct (dist2_nonneg p c) as [L|E]; [exact L|]. exfalso. apply H.
  unfold dist2, norm2, dot in E. apply vec_eq.
  - assert (vx (vsub p c) = 0%R) by nra. unfold vsub in H0; cbn in H0. unfold vx in *; cbn in *. lra.
  - assert (vy (vsub p c) = 0%R) by nra. unfold vsub in H0; cbn in H0. unfold vy in *; cbn in *. lra.
  - assert (vz (vsub p c) = 0%R) by nra. unfold vsub in H0; cbn in H0. unfold vz in *; cbn in *. lra.
Qed.
Lemma isolated_real sup rcut c : NoDup (map snd sup) -> (0 <= rcut)%R -> c < length sup -> isolated vdist Rleb sup rcut c.
Proof.
  intros Nd Hr Hc. assert (Ec := nth_error_nth' sup (0%Z, vzero) Hc). exists (nth c sup (0%Z, vzero)). split; [exact Ec|]. rewrite vdist_self. split; [apply Rleb_spec; exact Hr|].
  intros j a Hj Ha. apply Rleb_false, vdist_pos. intros E. apply Hj. apply (proj1 (NoDup_nth_error (map snd sup)) Nd); [rewrite map_length; apply nth_error_Some; congruence|]. rewrite !nth_error_map, Ha, Ec. cbn. rewrite E. reflexivity.
Qed.

(** *** Supercells *)
Lemma vadd_cancel p u v : vadd p u = vadd p v -> u = v.
Proof. destruct p as [[p0 p1] p2], u as [[u0 u1] u2], v as [[v0 v1] v2]. unfold vadd. cbn. intros E. injection E as E0 E1 E2. repeat f_equal; lra. Qed.
Lemma vadd_cancel_r p q v : vadd p v = vadd q v -> p = q.
Proof. destruct p as [[p0 p1] p2], q as [[u0 u1] u2], v as [[v0 v1] v2]. unfold vadd. cbn. intros E. injection E as E0 E1 E2. repeat f_equal; lra. Qed.
Lemma comb_zero A B C p : vadd p (comb A B C 0 0 0) = p.
Proof. destruct p as [[p0 p1] p2]. apply vec_eq; vec_ring. Qed.
Lemma image_diff A B C p q a b c a' b' c' : vadd q (comb A B C a' b' c') = vadd p (comb A B C a b c) -> q = vadd p (comb A B C (a - a') (b - b') (c - c')).
Proof.
  intros E. apply (vadd_cancel_r _ _ (comb A B C a' b' c')). rewrite E. apply vec_eq; vec_ring.
Qed.
Lemma comb_cycle A B C x y z : comb A B C x y z = comb B C A y z x /\ comb A B C x y z = comb C A B z x y.
Proof. split; apply vec_eq; vec_ring. Qed.
Lemma det_cycle A B C : det B C A = det A B C /\ det C A B = det A B C.
Proof. split; vec_ring. Qed.
Lemma comb_diff A B C h0 h1 h2 i j k f0 f1 f2 : vsub (vadd (comb A B C h0 h1 h2) (comb A B C i j k)) (comb A B C f0 f1 f2) = comb A B C (h0 + i - f0) (h1 + j - f1) (h2 + k - f2).
Proof. apply vec_eq; vec_ring. Qed.
Lemma dot_comb_cross P Q S x y z : dot (comb P Q S x y z) (cross Q S) = (x * det P Q S)%R.
Proof. vec_ring. Qed.
Section Cell.
Variables A B C : vec.
Hypothesis Hdet : det A B C <> 0%R.
Lemma comb_inj a b c a' b' c' : comb A B C a b c = comb A B C a' b' c' -> a = a' /\ b = b' /\ c = c'.
Proof. intros E. apply (coeff_unique A B C Hdet _ _ _ _) in E. rewrite (coeff_unique A B C Hdet _ a' b' c' eq_refl) in E. injection E as -> -> ->. repeat split. Qed.

Lemma supercell_nodup s0 s1 s2 mark (sites sup : list (Z * vec)) : positive_odd s0 -> positive_odd s1 -> positive_odd s2 -> distinct_sites A B C (map snd sites) ->
  make_supercell_ vec (translate_R A B C) s0 s1 s2 mark sites = Ok sup ->
  NoDup (map snd sup) /\ (forall j a, nth_error sup j = Some a -> exists i, image_of_site A B C sites a i) /\
  (forall i s (t : Z * Z * Z), nth_error sites i = Some s -> in_box s0 s1 s2 t -> let '(p, q, r) := t in In (fst s, vadd (snd s) (comb A B C (IZR p) (IZR q) (IZR r))) sup).
Proof.
  intros O0 O1 O2 Hd E. destruct (supercell_images A B C s0 s1 s2 sites O0 O1 O2) as (shifts & rest & _ & Nd & Box & Eu).
  set (raw := flat_map (fun t : Z * Z * Z => let '(i, j, k) := t in map (fun s => (fst s, vadd (snd s) (comb A B C (IZR i) (IZR j) (IZR k)))) sites) shifts) in *.
  assert (Pm : Permutation raw sup).
  { unfold make_supercell_ in *. destruct (_ =? _); [|discriminate]. injection Eu as Eu. injection E as E. rewrite Eu in E. destruct mark; [|rewrite E; reflexivity]. subst sup. apply sort_perm. }
  assert (Ndr : NoDup (map snd raw)).
  { assert (Er : map snd raw = flat_map (fun t : Z * Z * Z => let '(i, j, k) := t in map (fun p => vadd p (comb A B C (IZR i) (IZR j) (IZR k))) (map snd sites)) shifts).
    { unfold raw. clear. induction shifts as [|[[i j] k] l IH]; [reflexivity|]. cbn [flat_map]. rewrite map_app, IH, !map_map. reflexivity. }
    rewrite Er. apply flat_map_nodup; [exact Nd| |].
    - intros [[i j] k] _. apply FinFun.Injective_map_NoDup.
      + intros p q H. exact (vadd_cancel_r p q _ H).
      + apply NoDup_nth_error. intros m n Hm H. destruct (nth_error (map snd sites) m) as [p|] eqn:Ep; [|apply nth_error_None in Ep; lia].
        apply (Hd m n p p 0%Z 0%Z 0%Z Ep (eq_sym H)). symmetry. apply comb_zero.
    - intros [[i j] k] [[i' j'] k'] v It It' I1 I2. apply in_map_iff in I1. destruct I1 as (p & <- & Ip). apply in_map_iff in I2. destruct I2 as (q & Eq & Iq).
      apply In_nth_error in Ip. destruct Ip as (m & Em). apply In_nth_error in Iq. destruct Iq as (n & En).
      assert (X : m = n).
      { apply (Hd m n p q (i - i') (j - j') (k - k') Em En)%Z. rewrite !minus_IZR. exact (image_diff A B C p q _ _ _ _ _ _ Eq). }
      subst n. assert (p = q) by congruence. subst q. apply vadd_cancel, comb_inj in Eq. destruct Eq as (E1 & E2 & E3). apply eq_IZR in E1, E2, E3. congruence. }
  split; [apply (Permutation_NoDup (Permutation_map snd Pm)), Ndr|]. split.
  - intros j a Ha. apply nth_error_In in Ha. apply (Permutation_in _ (Permutation_sym Pm)) in Ha. unfold raw in Ha. apply in_flat_map in Ha. destruct Ha as ([[p q] r] & _ & Ha). apply in_map_iff in Ha. destruct Ha as (s & <- & Is).
    apply In_nth_error in Is. destruct Is as (i & Ei). exists i, s, p, q, r. split; [exact Ei|reflexivity].
  - intros i s [[p q] r] Es Hb. apply (Permutation_in _ Pm). unfold raw. apply in_flat_map. exists (p, q, r). split; [apply Box; exact Hb|]. apply in_map_iff. exists s. split; [reflexivity|exact (nth_error_In _ _ Es)].
Qed.

Lemma neighbors_v1_ok argsort (sites : list (Z * vec)) rcut s0 s1 s2 : sorts Rleb argsort -> positive_odd s0 -> positive_odd s1 -> positive_odd s2 ->
  distinct_sites A B C (map snd sites) -> (0 <= rcut)%R ->
  exists sup idxs table, make_supercell_ vec (translate_R A B C) s0 s1 s2 true sites = Ok sup /\
    get_key_idxs vec (translate_R A B C) s0 s1 s2 sites = Ok idxs /\
    structure_neighbors_v1 argsort A B C sites rcut s0 s1 s2 true = Ok table /\
    key_neighs_info vdist Rleb argsort vzero 0%R sup idxs rcut = Ok table /\
    map (nth_error sup) idxs = map Some (reformat_elements_ vec sites) /\
    Forall (isolated vdist Rleb sup rcut) idxs.
Proof.
  intros Hs O0 O1 O2 Hd Hr. destruct (key_idxs_spec vec (translate_R A B C) s0 s1 s2 sites O0 O1 O2 (translate_R_zero A B C)) as (idxs & sup & Ek & Es & Li & _ & Em). unfold site in *.
  destruct (supercell_nodup s0 s1 s2 true sites sup O0 O1 O2 Hd Es) as (Nd & _ & _).
  assert (Iso : Forall (isolated vdist Rleb sup rcut) idxs).
  { apply Forall_forall. intros c Hc. apply isolated_real; [exact Nd|exact Hr|]. destruct (nth_error sup c) as [x|] eqn:Ec; [apply nth_error_Some; congruence|]. assert (X : In (nth_error sup c) (map (nth_error sup) idxs)) by (apply in_map; exact Hc). rewrite Em, Ec in X. apply in_map_iff in X. destruct X as (s & X & _). discriminate. }
  destruct (table_rests vdist Rleb argsort vzero 0%R Rleb_total Hs sup idxs rcut Iso) as (table & _ & _ & Et & _).
  exists sup, idxs, table. split; [exact Es|]. split; [exact Ek|]. split; [unfold structure_neighbors_v1; rewrite Es; cbn [bind]; rewrite Ek; cbn [bind]; exact Et|]. split; [exact Et|]. split; assumption.
Qed.

Lemma structure_table argsort (sites : list (Z * vec)) rcut s0 s1 s2 : sorts Rleb argsort -> positive_odd s0 -> positive_odd s1 -> positive_odd s2 ->
  distinct_sites A B C (map snd sites) -> (0 <= rcut)%R ->
  exists sup idxs table rests w, make_supercell_ vec (translate_R A B C) s0 s1 s2 true sites = Ok sup /\
    structure_neighbors_v1 argsort A B C sites rcut s0 s1 s2 true = Ok table /\
    map (nth_error sup) idxs = map Some (reformat_elements_ vec sites) /\
    length table = length sites /\ length rests = length sites /\
    Forall2 (fun c rest => neighbours vdist Rleb sup rcut c (c :: rest)) idxs rests /\
    widest (map (fun cr => fst cr :: snd cr) (combine idxs rests)) w /\
    forall i c rest row, nth_error idxs i = Some c -> nth_error rests i = Some rest -> nth_error table i = Some row -> shows_row vdist vzero 0%R sup w c (c :: rest) row.
Proof.
  intros Hs O0 O1 O2 Hd Hr. destruct (neighbors_v1_ok argsort sites rcut s0 s1 s2 Hs O0 O1 O2 Hd Hr) as (sup & idxs & table & Es & Ek & En & Et & Em & Iso).
  destruct (table_rests vdist Rleb argsort vzero 0%R Rleb_total Hs sup idxs rcut Iso) as (table' & rests & w & Et' & F & Wd & Lr & Ec & Sh). assert (Q : table' = table) by congruence. rewrite Q in *. clear Q.
  assert (Li : length idxs = length sites). { assert (X : length (map (nth_error sup) idxs) = length (map Some (reformat_elements_ vec sites))) by (rewrite Em; reflexivity). rewrite !map_length in X. rewrite X. symmetry. apply Permutation_length, sort_perm. }
  exists sup, idxs, table, rests, w. split; [exact Es|]. split; [exact En|]. split; [exact Em|]. split; [rewrite Ec, map_length, combine_length; lia|]. split; [lia|]. split; [exact F|]. split; [exact Wd|exact Sh].
Qed.

Lemma structure_counts argsort (sites : list (Z * vec)) rcut s0 s1 s2 : sorts Rleb argsort -> positive_odd s0 -> positive_odd s1 -> positive_odd s2 ->
  distinct_sites A B C (map snd sites) -> (0 <= rcut)%R ->
  exists sup idxs table m w, make_supercell_ vec (translate_R A B C) s0 s1 s2 true sites = Ok sup /\
    map (nth_error sup) idxs = map Some (reformat_elements_ vec sites) /\
    structure_neighbors_v1 argsort A B C sites rcut s0 s1 s2 true = Ok table /\
    structure_max_nbrs A B C sites rcut s0 s1 s2 = Ok (Z.of_nat m - 1)%Z /\
    Forall (fun row => length (fst (fst row)) = w /\ length (snd (fst row)) = w /\ length (snd row) = w) table /\
    largest_number (near vdist Rleb sup rcut) sup idxs w /\ largest_number (strict_near vdist Rleb sup rcut) sup idxs m /\ m <= w.
Proof.
  intros Hs O0 O1 O2 Hd Hr. destruct (neighbors_v1_ok argsort sites rcut s0 s1 s2 Hs O0 O1 O2 Hd Hr) as (sup & idxs & table & Es & Ek & En & Et & Em & Iso).
  assert (Hb : Forall (fun c => c < length sup) idxs) by (revert Iso; apply Forall_impl; intros c; apply isolated_bound).
  destruct (width_and_count vdist Rleb argsort vzero 0%R Rleb_total Hs sup idxs rcut Hb) as (t & m & w & E1 & E2 & F & L1 & L2 & Le & _). assert (Q : t = table) by congruence. rewrite Q in *. clear Q.
  exists sup, idxs, table, m, w. split; [exact Es|]. split; [exact Em|]. split; [exact En|]. split; [unfold structure_max_nbrs; rewrite Ek; cbn [bind]; rewrite Es; cbn [bind]; exact E2|]. auto.
Qed.

(** Images within reach of a big enough supercell. *)
Lemma reach_axis rcut s (P Q S : vec) (f h : R) (i : Z) (y z : R) : det P Q S <> 0%R -> reaches rcut s P Q S -> (0 <= rcut)%R -> positive_odd s ->
  (0 <= f < 1)%R -> (0 <= h < 1)%R -> (norm2 (comb P Q S (h + IZR i - f) y z) <= rcut * rcut)%R -> (2 * Z.abs i <= s - 1)%Z.
Proof.
  intros Hd Hre Hr [Hs [m Hm]] Hf Hh Hn. destruct (Z_le_gt_dec (2 * Z.abs i) (s - 1)) as [L|G]; [exact L|exfalso].
  set (r := (h + IZR i - f)%R) in *. assert (Cs := cauchy (comb P Q S r y z) (cross Q S)).
  assert (E : dot (comb P Q S r y z) (cross Q S) = (r * det P Q S)%R) by apply dot_comb_cross. rewrite E in Cs. unfold reaches in Hre.
  assert (Hm0 : (0 <= m)%Z) by lia. assert (Gi : (m + 1 <= Z.abs i)%Z) by lia.
  assert (IZR s - 1 = 2 * IZR m)%R by (rewrite Hm, plus_IZR, mult_IZR; lra). rewrite H in Hre.
  assert (Hm1 : (0 <= IZR m)%R) by (apply IZR_le; exact Hm0).
  assert (Ri : (IZR m < r \/ r < - IZR m)%R).
  { destruct (Z_le_gt_dec 0 i) as [I0|I0]; [left|right]; unfold r.
    - assert (IZR (m + 1) <= IZR i)%R by (apply IZR_le; lia). rewrite plus_IZR in H0. lra.
    - assert (IZR (m + 1) <= IZR (- i))%R by (apply IZR_le; lia). rewrite plus_IZR, opp_IZR in H0. lra. }
  assert (Hsq : (IZR m * IZR m < r * r)%R) by (destruct Ri; nra).
  assert (Dp : (0 < det P Q S * det P Q S)%R) by (destruct (Rdichotomy _ _ Hd); nra).
  assert (Np : (0 <= norm2 (cross Q S))%R) by (unfold norm2, dot; nra).
  set (d2 := (det P Q S * det P Q S)%R) in *. set (nn := norm2 (cross Q S)) in *. set (nv := norm2 (comb P Q S r y z)) in *.
  replace (r * det P Q S * (r * det P Q S))%R with (r * r * d2)%R in Cs by (unfold d2; ring). 
  assert (nv * nn <= rcut * rcut * nn)%R by (apply Rmult_le_compat_r; assumption).
  assert (IZR m * IZR m * d2 < r * r * d2)%R by (apply Rmult_lt_compat_r; assumption).
  lra.
Qed.

Lemma all_images s0 s1 s2 rcut (p q : vec) (i j k : Z) : positive_odd s0 -> positive_odd s1 -> positive_odd s2 -> (0 <= rcut)%R ->
  reaches rcut s0 A B C -> reaches rcut s1 B C A -> reaches rcut s2 C A B -> in_cell A B C p -> in_cell A B C q ->
  (vdist (vadd q (comb A B C (IZR i) (IZR j) (IZR k))) p <= rcut)%R -> in_box s0 s1 s2 (i, j, k).
Proof.
  intros O0 O1 O2 Hr R0 R1 R2 (f0 & f1 & f2 & F0 & F1 & F2 & ->) (h0 & h1 & h2 & H0 & H1 & H2 & ->) Hd.
  assert (N : (norm2 (comb A B C (h0 + IZR i - f0) (h1 + IZR j - f1) (h2 + IZR k - f2)) <= rcut * rcut)%R).
  { rewrite vdist_norm2 in Hd. replace (comb A B C (h0 + IZR i - f0) (h1 + IZR j - f1) (h2 + IZR k - f2)) with (vsub (vadd (comb A B C h0 h1 h2) (comb A B C (IZR i) (IZR j) (IZR k))) (comb A B C f0 f1 f2)) by apply comb_diff.
    fold (dist2 (vadd (comb A B C h0 h1 h2) (comb A B C (IZR i) (IZR j) (IZR k))) (comb A B C f0 f1 f2)). set (d := dist2 _ _) in *. assert (D := dist2_nonneg (vadd (comb A B C h0 h1 h2) (comb A B C (IZR i) (IZR j) (IZR k))) (comb A B C f0 f1 f2)). fold d in D. clearbody d.
    rewrite <- (sqrt_sqrt d D). assert (Sp := sqrt_pos d). apply Rmult_le_compat; assumption. }
  destruct (comb_cycle A B C (h0 + IZR i - f0) (h1 + IZR j - f1) (h2 + IZR k - f2)) as [E1 E2]. destruct (det_cycle A B C) as [D1 D2]. unfold in_box. split; [|split].
  - exact (reach_axis rcut s0 A B C f0 h0 i _ _ Hdet R0 Hr O0 F0 H0 N).
  - rewrite E1 in N. rewrite <- D1 in Hdet. exact (reach_axis rcut s1 B C A f1 h1 j _ _ Hdet R1 Hr O1 F1 H1 N).
  - rewrite E2 in N. rewrite <- D2 in Hdet. exact (reach_axis rcut s2 C A B f2 h2 k _ _ Hdet R2 Hr O2 F2 H2 N).
Qed.

Lemma structure_complete (sites sup : list (Z * vec)) rcut s0 s1 s2 idxs : positive_odd s0 -> positive_odd s1 -> positive_odd s2 ->
  distinct_sites A B C (map snd sites) -> (0 <= rcut)%R -> Forall (fun s => in_cell A B C (snd s)) sites ->
  reaches rcut s0 A B C -> reaches rcut s1 B C A -> reaches rcut s2 C A B ->
  make_supercell_ vec (translate_R A B C) s0 s1 s2 true sites = Ok sup -> map (nth_error sup) idxs = map Some (reformat_elements_ vec sites) ->
  forall i c sel s a, nth_error idxs i = Some c -> nth_error (reformat_elements_ vec sites) i = Some s -> neighbours vdist Rleb sup rcut c sel ->
  ((exists j, In j sel /\ nth_error sup j = Some a) <-> (exists m, image_of_site A B C sites a m) /\ (vdist (snd a) (snd s) <= rcut)%R).
Proof.
  intros O0 O1 O2 Hd Hr Hc R0 R1 R2 Es Em i c sel s a Hi Hs (cen & Ec & (_ & L) & _). destruct (supercell_nodup s0 s1 s2 true sites sup O0 O1 O2 Hd Es) as (Nd & Im & Box).
  assert (cen = s). { assert (X : nth_error (map (nth_error sup) idxs) i = nth_error (map Some (reformat_elements_ vec sites)) i) by (rewrite Em; reflexivity). rewrite !nth_error_map, Hi, Hs in X. cbn in X. congruence. }
  subst cen. assert (Is : In s sites) by (apply (Permutation_in s (Permutation_sym (sort_perm _ fst sites))); exact (nth_error_In _ _ Hs)). rewrite Forall_forall in Hc. split.
  - intros (j & Ij & Ea). destruct (proj1 (L j) Ij) as (a' & Ea' & W). assert (a' = a) by congruence. subst a'. split; [exact (Im j a Ea)|apply Rleb_spec; exact W].
  - intros ((m & t & p & q & r & Et & ->) & W). cbn [snd] in W. assert (B3 : in_box s0 s1 s2 (p, q, r)) by (apply (all_images s0 s1 s2 rcut (snd s) (snd t)); try assumption; [apply Hc; exact Is|apply Hc; exact (nth_error_In _ _ Et)]).
    assert (I := Box m t (p, q, r) Et B3). cbn in I. apply In_nth_error in I. destruct I as (j & Ej). exists j. split; [|exact Ej]. apply L. eexists. split; [exact Ej|]. apply Rleb_spec. exact W.
Qed.

(** *** Site indices *)
Lemma separated_distinct positions : separated (lattice_image A B C) positions -> distinct_sites A B C positions.
Proof.
  intros H i j p q a b c Ei Ej ->. apply (H i j p _ Ei Ej). exists a, b, c, 0%R, 0%R, 0%R. rewrite !Rplus_0_r, Rabs_R0. split; [reflexivity|]. lra.
Qed.
Lemma image_shift p q a b c : lattice_image A B C p (vadd q (comb A B C (IZR a) (IZR b) (IZR c))) -> lattice_image A B C p q.
Proof.
  intros (i & j & k & e & f & g & E & B1 & B2 & B3). exists (i - a)%Z, (j - b)%Z, (k - c)%Z, e, f, g. split; [|auto]. rewrite !minus_IZR.
  rewrite (image_diff A B C p q _ _ _ _ _ _ E). f_equal. f_equal; ring.
Qed.
Variable rnd : R -> Z.
Hypothesis Hrnd : forall x, (Rabs (x - IZR (rnd x)) <= 1 / 2)%R.
Lemma index_of_image (sites : list (Z * vec)) a i : separated (lattice_image A B C) (map snd sites) -> image_of_site A B C sites a i ->
  get_site_index rnd A B C (map snd sites) (snd a) = (i + 1)%nat.
Proof.
  intros Hs (s & p & q & r & Ei & ->). cbn [snd]. apply (site_index_spec rnd Hrnd A B C Hdet). right.
  assert (Es : nth_error (map snd sites) i = Some (snd s)) by (rewrite nth_error_map, Ei; reflexivity).
  exists i, (snd s). split; [reflexivity|]. split; [exact Es|]. split.
  - exists p, q, r, 0%R, 0%R, 0%R. rewrite !Rplus_0_r, Rabs_R0. split; [reflexivity|]. lra.
  - intros m c' Hm Ec Hl. apply image_shift in Hl. assert (m = i) by exact (Hs m i c' (snd s) Ec Es Hl). lia.
Qed.

Lemma structure_indices argsort (sites : list (Z * vec)) rcut s0 s1 s2 center nbr m : sorts Rleb argsort -> positive_odd s0 -> positive_odd s1 -> positive_odd s2 ->
  separated (lattice_image A B C) (map snd sites) -> (0 <= rcut)%R -> sites <> [] -> nbr <> 0%Z -> (0 < m)%nat ->
  exists sup idxs table sels real, make_supercell_ vec (translate_R A B C) s0 s1 s2 true sites = Ok sup /\
    map (nth_error sup) idxs = map Some (reformat_elements_ vec sites) /\
    structure_neighbors_v1 argsort A B C sites rcut s0 s1 s2 true = Ok table /\
    Forall2 (pair_neighbours vdist Rleb sup rcut nbr) (centres_of sup center idxs) sels /\ widest sels real /\
    (real <= m -> exists rows, _get_nbrs_indices vzero (get_site_index rnd A B C (map snd sites)) table center nbr (Some m) = Ok rows /\
      Forall2 (fun sel row => exists vals,
        Forall2 (fun j v => exists a i, nth_error sup j = Some a /\ image_of_site A B C sites a i /\ v = (i + 1)%nat) sel vals /\
        row = vals ++ repeat (get_site_index rnd A B C (map snd sites) vzero) (real - length sel) ++ repeat 0 (m - real)) sels rows) /\
    (m < real -> _get_nbrs_indices vzero (get_site_index rnd A B C (map snd sites)) table center nbr (Some m) = Err ValueError).
Proof.
  intros Hso O0 O1 O2 Hs Hr Hne Hn Hm. assert (Hd := separated_distinct _ Hs). destruct (neighbors_v1_ok argsort sites rcut s0 s1 s2 Hso O0 O1 O2 Hd Hr) as (sup & idxs & table & Es & Ek & En & Et & Em & Iso).
  assert (Hk : idxs <> []).
  { intros ->. cbn in Em. apply Hne. assert (Pm := sort_perm _ fst sites). unfold reformat_elements_ in Em. destruct (sort_by fst sites); [|discriminate]. apply Permutation_nil. symmetry. exact Pm. }
  destruct (pair_all vdist Rleb argsort vzero 0%R Rleb_total Hso (fun p _ => p) sup idxs rcut center nbr Iso Hk Hn) as (t & sels & real & E & F & W & _ & G). assert (Q : t = table) by congruence. rewrite Q in *. clear Q.
  destruct (G (get_site_index rnd A B C (map snd sites)) m) as [G1 G2]. exists sup, idxs, table, sels, real. split; [exact Es|]. split; [exact Em|]. split; [exact En|]. split; [exact F|]. split; [exact W|]. split.
  - intros Hrm. destruct (G1 Hrm Hm) as (rows & Er & Fr). exists rows. split; [exact Er|]. destruct (supercell_nodup s0 s1 s2 true sites sup O0 O1 O2 Hd Es) as (_ & Im & _).
    clear - Fr Im Hs Hdet Hrnd. induction Fr as [|sel row sels rows (vals & Fv & ->) Fr IH]; constructor; [|exact IH]. exists vals. split; [|reflexivity].
    clear - Fv Im Hs Hdet Hrnd. induction Fv as [|j v sel vals (a & Ea & ->) Fv IH]; constructor; [|exact IH]. destruct (Im j a Ea) as (i & Hi). exists a, i. split; [exact Ea|]. split; [exact Hi|]. apply index_of_image; assumption.
  - intros Hrm. exact (G2 Hrm Hm).
Qed.
Lemma padding_index (positions : list vec) : 
  (get_site_index rnd A B C positions vzero = 0 <-> Forall (fun c => ~ lattice_image A B C c vzero) positions) /\
  (forall i c, nth_error positions i = Some c -> lattice_image A B C c vzero ->
    (forall m c', (m < i)%nat -> nth_error positions m = Some c' -> ~ lattice_image A B C c' vzero) -> get_site_index rnd A B C positions vzero = (i + 1)%nat).
Proof.
  split.
  - rewrite (site_index_spec rnd Hrnd A B C Hdet). split; [intros [[_ H]|(n & c & E & _)]; [exact H|lia]|intros H; left; auto].
  - intros i c E H M. apply (site_index_spec rnd Hrnd A B C Hdet). right. exists i, c. auto.
Qed.
End Cell.

(** *** Examples *)
Definition axis_a : vec := (10, 0, 0)%R.
Definition axis_b : vec := (0, 10, 0)%R.
Definition axis_c : vec := (0, 0, 10)%R.
Lemma det_cube : det axis_a axis_b axis_c = 1000%R.
Proof. unfold axis_a, axis_b, axis_c. vec_unfold. ring. Qed.
Definition two_sites : list (Z * vec) := [(8%Z, (0, 0, 0)%R); (1%Z, (1, 0, 0)%R)].
Lemma no_tenth (i : Z) (e : R) : (Rabs e <= 1 / 10 ^ 10)%R -> (10 * (IZR i + e) = 1)%R \/ (10 * (IZR i + e) = -1)%R -> False.
Proof.
  intros He H. assert (T : (10 ^ 10 = 10000000000)%R) by lra. rewrite T in He. assert (Hb : (- (1 / 10000000000) <= e <= 1 / 10000000000)%R) by (unfold Rabs in He; destruct (Rcase_abs e); lra).
  assert (X : (-1 < IZR i < 1)%R) by (destruct H; lra). destruct X as [X1 X2]. apply lt_IZR in X1, X2. assert (i = 0%Z) by lia. subst. destruct H; lra.
Qed.
Lemma two_separated : separated (lattice_image axis_a axis_b axis_c) (map snd two_sites).
Proof.
  intros i j p q Hi Hj (a & b & c & e & f & g & E & B1 & B2 & B3). destruct i as [|[|i]]; destruct j as [|[|j]]; cbn in Hi, Hj; try reflexivity; try (destruct i; discriminate); try (destruct j; discriminate);
  injection Hi as <-; injection Hj as <-; exfalso; unfold axis_a, axis_b, axis_c in E; vec_unfold; injection E as E0 E1 E2; apply (no_tenth a e B1); [left|right]; lra.
Qed.

(** A concrete argsort (insertion sort), to show that the hypothesis on argsort can be met. *)
Fixpoint ins {D} (leb : D -> D -> bool) (x : nat * D) (l : list (nat * D)) : list (nat * D) :=
  match l with [] => [x] | y :: r => if leb (snd x) (snd y) then x :: l else y :: ins leb x r end.
Definition insertion_argsort {D} (leb : D -> D -> bool) (ds : list D) : list nat :=
  map fst (fold_right (ins leb) [] (combine (seq 0 (length ds)) ds)).
Lemma ins_perm {D} leb (x : nat * D) l : Permutation (x :: l) (ins leb x l).
Proof. induction l as [|y r IH]; cbn [ins]; [apply Permutation_refl|]. destruct (leb (snd x) (snd y)); [apply Permutation_refl|]. rewrite perm_swap. apply perm_skip. exact IH. Qed.
Lemma ins_sorted {D} leb (x : nat * D) l : total_preorder leb -> StronglySorted (fun a b => leb (snd a) (snd b) = true) l -> StronglySorted (fun a b => leb (snd a) (snd b) = true) (ins leb x l).
Proof.
  intros [To Tr] H. induction H as [|y r Hr IH F]; cbn [ins]; [repeat constructor|]. destruct (leb (snd x) (snd y)) eqn:E.
  - constructor; [constructor; assumption|]. constructor; [exact E|]. revert F. apply Forall_impl. intros z Hz. exact (Tr _ _ _ E Hz).
  - constructor; [exact IH|]. apply Forall_forall. intros z Iz. apply (Permutation_in _ (Permutation_sym (ins_perm leb x r))) in Iz. destruct Iz as [<-|Iz]; [destruct (To (snd x) (snd y)); [congruence|assumption]|]. rewrite Forall_forall in F. exact (F z Iz).
Qed.
Lemma insertion_sorts {D} (leb : D -> D -> bool) : total_preorder leb -> sorts leb (insertion_argsort leb).
Proof.
  intros T ds. unfold insertion_argsort. set (ps := combine (seq 0 (length ds)) ds).
  assert (Pm : forall l, Permutation l (fold_right (ins leb) [] l)) by (intros l; induction l as [|x l IH]; [constructor|]; cbn [fold_right]; rewrite <- ins_perm; apply perm_skip; exact IH).
  assert (St : forall l, StronglySorted (fun a b => leb (snd a) (snd b) = true) (fold_right (ins leb) [] l)) by (intros l; induction l as [|x l IH]; [constructor|]; cbn [fold_right]; apply ins_sorted; assumption).
  assert (Val : forall (l : list D) k i d, In (i, d) (combine (seq k (length l)) l) -> nth_error l (i - k) = Some d /\ k <= i).
  { clear. intros l. induction l as [|x l IH]; intros k i d H; [destruct H|]. cbn [length seq combine] in H. destruct H as [E|H]; [injection E as <- <-; rewrite Nat.sub_diag; split; [reflexivity|lia]|].
    destruct (IH (S k) i d H) as [E L]. replace (i - k) with (S (i - S k)) by lia. cbn. split; [exact E|lia]. }
  assert (Fst : map fst ps = seq 0 (length ds)).
  { unfold ps. generalize 0. clear. induction ds as [|d ds IH]; intros k; [reflexivity|]. cbn. rewrite IH. reflexivity. }
  split; [rewrite <- Fst; apply Permutation_map, Permutation_sym, Pm|].
  assert (V : Forall (fun x => nth_error ds (fst x) = Some (snd x)) (fold_right (ins leb) [] ps)).
  { apply Forall_forall. intros [i d] Ix. apply (Permutation_in _ (Permutation_sym (Pm ps))) in Ix. destruct (Val ds 0 i d Ix) as [E _]. rewrite Nat.sub_0_r in E. exact E. }
  specialize (St ps). revert V St. generalize (fold_right (ins leb) [] ps). clear. intros l V St. induction St as [|x l St IH F]; cbn [map]; [constructor|]. inversion V as [|? ? Vx Vl]; subst. constructor; [exact (IH Vl)|].
  apply Forall_forall. intros j Ij. apply in_map_iff in Ij. destruct Ij as (y & <- & Iy). rewrite Forall_forall in F, Vl. intros a b Ea Eb. specialize (F y Iy). specialize (Vl y Iy). congruence.
Qed.
Lemma Zleb_total : total_preorder Z.leb.
Proof. split; intros; lia. Qed.

(** Too small a supercell. *)
Definition one_site : list (Z * vec) := [(14%Z, (0, 0, 0)%R)].
Lemma small_supercell_loses : exists sup a, make_supercell_ vec (translate_R axis_a axis_b axis_c) 1 1 1 true one_site = Ok sup /\
  image_of_site axis_a axis_b axis_c one_site a 0 /\ vdist (snd a) (0, 0, 0)%R = 10%R /\ ~ In a sup.
Proof.
  exists [(14%Z, translate_R axis_a axis_b axis_c (0, 0, 0)%Z (0, 0, 0)%R)], (14%Z, (10, 0, 0)%R). split; [reflexivity|]. split; [|split].
  - exists (14%Z, (0, 0, 0)%R), 1%Z, 0%Z, 0%Z. split; [reflexivity|]. cbn [fst snd]. apply (f_equal (pair 14%Z)). unfold axis_a, axis_b, axis_c. apply vec_eq; vec_unfold; ring.
  - rewrite vdist_norm2. replace (dist2 _ _) with (10 * 10)%R by (cbn [snd]; vec_unfold; ring). apply sqrt_square. lra.
  - intros [E|[]]. rewrite translate_R_zero in E. injection E as E. lra.
Qed.

(** Without sorting the supercell, rows are centred on atoms that are not sites of the structure. *)
Lemma unsorted_centres argsort rcut : sorts Rleb argsort -> (0 <= rcut)%R -> exists table row, structure_neighbors_v1 argsort axis_a axis_b axis_c two_sites rcut 3 1 1 false = Ok table /\
  In row table /\ exists p, hd_error (snd row) = Some p /\ Forall (fun s => snd s <> p) two_sites.
Proof.
  intros Hs Hr. assert (Hdet : det axis_a axis_b axis_c <> 0%R) by (rewrite det_cube; lra). assert (Od : positive_odd 3 /\ positive_odd 1) by (split; (split; [lia|]); [exists 1%Z|exists 0%Z]; lia). destruct Od as [O3 O1].
  set (T := fun a : Z => translate_R axis_a axis_b axis_c (a, 0, 0)%Z).
  set (sup := [(8%Z, T 0%Z (0, 0, 0)%R); (1%Z, T 0%Z (1, 0, 0)%R); (8%Z, T (-2)%Z (0, 0, 0)%R); (1%Z, T (-2)%Z (1, 0, 0)%R); (8%Z, T 2%Z (0, 0, 0)%R); (1%Z, T 2%Z (1, 0, 0)%R)]).
  assert (Es : make_supercell_ vec (translate_R axis_a axis_b axis_c) 3 1 1 false two_sites = Ok sup) by reflexivity.
  assert (Ek : get_key_idxs vec (translate_R axis_a axis_b axis_c) 3 1 1 two_sites = Ok [0; 3]) by reflexivity.
  destruct (supercell_nodup axis_a axis_b axis_c Hdet 3 1 1 false two_sites sup O3 O1 O1 (separated_distinct _ _ _ _ two_separated) Es) as (Nd & _ & _).
  assert (Iso : Forall (isolated vdist Rleb sup rcut) [0; 3]) by (repeat constructor; apply isolated_real; try assumption; cbn; lia).
  destruct (table_rests vdist Rleb argsort vzero 0%R Rleb_total Hs sup [0; 3] rcut Iso) as (table & rests & w & Et & F & Wd & Lr & Ec & Sh).
  destruct rests as [|r0 [|r1 [|]]]; try discriminate. destruct table as [|row0 [|row1 [|]]]; try discriminate.
  exists [row0; row1], row1. split; [unfold structure_neighbors_v1; rewrite Es; cbn [bind]; rewrite Ek; exact Et|]. split; [right; left; reflexivity|].
  destruct (Sh 1 3 r1 row1 eq_refl eq_refl eq_refl) as (cen & Ecen & _ & _ & (vals & Fv & _ & Er)). inversion Fv as [|? v ? vals' (a & Ea & Ev) Fv']; subst vals. cbn in Ea. injection Ea as <-. subst v.
  rewrite Er. exists (T (-2)%Z (1, 0, 0)%R). split; [reflexivity|].
  assert (ET : T (-2)%Z (1, 0, 0)%R = (-9, 0, 0)%R) by (unfold T, translate_R, axis_a, axis_b, axis_c; apply vec_eq; vec_unfold; lra).
  rewrite ET. repeat constructor; cbn [snd]; intros E; injection E as E; lra.
Qed.

(** Positions on a line. *)
Definition zdist (p c : Z) : Z := Z.abs (p - c).
Definition line : list (Z * Z) := [(8, 0); (8, 10); (1, 3); (1, 2); (14, -2); (1, 30)]%Z.
Lemma line_isolated : Forall (isolated zdist Z.leb line 10%Z) [0; 1].
Proof.
  repeat constructor; (eexists; split; [reflexivity|]; split; [reflexivity|]); intros j a Hj Ha; destruct j as [|[|[|[|[|[|j]]]]]]; try contradiction; cbn in Ha; try (injection Ha as <-; reflexivity); destruct j; discriminate.
Qed.
Lemma two_in_cell : Forall (fun s => in_cell axis_a axis_b axis_c (snd s)) two_sites.
Proof.
  unfold axis_a, axis_b, axis_c. repeat constructor; [exists 0%R, 0%R, 0%R|exists (1 / 10)%R, 0%R, 0%R]; (split; [lra|split; [lra|split; [lra|]]]); apply vec_eq; cbn [snd]; vec_unfold; lra.
Qed.
Lemma cube_reaches : reaches 9 3 axis_a axis_b axis_c /\ reaches 9 3 axis_b axis_c axis_a /\ reaches 9 3 axis_c axis_a axis_b.
Proof. unfold reaches, axis_a, axis_b, axis_c. vec_unfold. lra. Qed.
Definition line_table : list (list Z * list Z * list Z) :=
  [([8; 1; 14; 1]%Z, [0; 2; 2; 3]%Z, [0; 2; -2; 3]%Z); ([8; 0; 0; 0]%Z, [0; 0; 0; 0]%Z, [10; 0; 0; 0]%Z)].
Lemma line_table_ok : key_neighs_info zdist Z.leb (insertion_argsort Z.leb) 0%Z 0%Z line [0; 1] 3%Z = Ok line_table.
Proof. reflexivity. Qed.

(** *** Arguments that are rejected *)
Section Rejected.
Context {P D : Type}.
Variable zeroP : P.
Variable si : P -> nat.
Lemma one_bad {A B} (f : A -> result B) a l e : f a = Err e -> mapM f (a :: l) = Err e.
Proof. intros H. cbn. rewrite H. reflexivity. Qed.
Lemma rows_absent (table : list (list Z * list D * list P)) c n o : table <> [] -> Forall (fun r => exists z zs, fst (fst r) = z :: zs /\ z <> c) table ->
  _get_nbrs_indices zeroP si table c n o = Ok [].
Proof.
  intros Ht H. unfold _get_nbrs_indices.
  assert (M : exists ms, mapM (row_mask c n) (map (fun r => fst (fst r)) table) = Ok ms /\ Forall (fun m => fst m = false) ms).
  { clear Ht. induction H as [|r t (z & zs & E & N) H IH]; [exists []; split; [reflexivity|constructor]|]. destruct IH as (ms & E2 & F2). cbn [map mapM]. rewrite E. unfold row_mask at 1. cbn [get bind nth_error].
    rewrite E2. cbn [bind]. eexists. split; [reflexivity|]. constructor; [|exact F2]. cbn. now apply Z.eqb_neq. }
  destruct M as (ms & E & F). assert (masks c n (map (fun r => fst (fst r)) table) = Ok ms) as ->; [unfold masks; destruct table as [|r t]; [contradiction|exact E]|]. cbn [bind].
  assert (filter (fun mr : (bool * list bool) * (list Z * list D * list P) => fst (fst mr)) (combine ms table) = []) as ->.
  { clear - F. revert table. induction F as [|m ms Hm F IH]; intros [|r t]; cbn; try reflexivity. rewrite Hm. apply IH. }
  cbn [mapM bind map]. destruct o as [[|w]|]; reflexivity.
Qed.
Lemma nbrs_rejected (table : list (list Z * list D * list P)) centers nbrs :
  (forall o, centers = [] -> get_nbrs_indices zeroP si table centers nbrs o = Err ValueError) /\
  (forall o, centers <> [] -> nbrs = [] -> get_nbrs_indices zeroP si table centers nbrs o = Err ValueError) /\
  (centers <> [] -> nbrs <> [] -> get_nbrs_indices zeroP si table centers nbrs None = Err TypeError) /\
  (forall ws, centers <> [] -> nbrs <> [] -> table = [] \/ ws = [] -> get_nbrs_indices zeroP si table centers nbrs (Some ws) = Err IndexError) /\
  (forall c rest ws, centers = c :: rest -> table <> [] -> Forall (fun r => exists z zs, fst (fst r) = z :: zs /\ z <> c) table ->
    length ws = length nbrs -> In 0 ws -> get_nbrs_indices zeroP si table centers nbrs (Some ws) = Err ValueError).
Proof.
  split; [intros o ->; reflexivity|]. split; [intros o Hc ->; destruct centers; [contradiction|]; reflexivity|]. split; [intros Hc Hn; destruct centers; [contradiction|]; destruct nbrs; [contradiction|]; reflexivity|]. split.
  - intros ws Hc Hn H. destruct centers; [contradiction|]; destruct nbrs; [contradiction|]. destruct ws; [reflexivity|]. destruct H as [-> |H]; [reflexivity|discriminate].
  - intros c rest ws -> Ht H L I. unfold get_nbrs_indices.
    assert (E : forall k l, k + length l = length ws -> mapM (fun jn : nat * Z => bind (get ws (fst jn)) (fun w => bind (_get_nbrs_indices zeroP si table c (snd jn) (Some w)) (fun l => Ok (w, l)))) (combine (seq k (length l)) l) = Ok (map (fun w => (w, [])) (skipn k ws))).
    { intros k l. revert k. induction l as [|n l IH]; intros k K; [rewrite skipn_all2 by (cbn in K; lia); reflexivity|]. cbn [length seq combine mapM fst snd]. cbn in K.
      destruct (nth_error ws k) as [w|] eqn:W; [|apply nth_error_None in W; lia]. assert (skipn k ws = w :: skipn (S k) ws) as ->.
      { clear - W. revert k W. induction ws as [|x ws IH]; intros [|k] W; try discriminate; cbn in *; [congruence|]. apply IH. exact W. }
      unfold get at 1. rewrite W. cbn [bind]. rewrite rows_absent by assumption. cbn [bind]. rewrite IH by lia. reflexivity. }
    specialize (E 0 nbrs). cbn [skipn] in E. cbn [mapM].
    assert (X : mapM (fun jn : nat * Z => bind (get ws (fst jn)) (fun w => bind (_get_nbrs_indices zeroP si table c (snd jn) (Some w)) (fun l => Ok (w, l)))) (enumerate nbrs) = Ok (map (fun w => (w, [])) ws)) by (apply E; cbn; lia).
    rewrite X. cbn [bind]. assert (concat1 (map (fun w => (w, [])) ws) = Err ValueError) as ->; [|reflexivity].
    unfold concat1. destruct ws as [|w0 ws]; [destruct I|]. cbn [map]. replace (forallb (fun wp : nat * list (list nat) => two_dim (fst wp) (snd wp)) ((w0, []) :: map (fun w => (w, [])) ws)) with false; [reflexivity|].
    symmetry. apply Bool.not_true_is_false. intros T. rewrite forallb_forall in T. assert (Y := T (0, []) ltac:(change ((w0, []) :: map (fun w => (w, [])) ws) with (map (fun w => (w, @nil (list nat))) (w0 :: ws)); apply in_map_iff; exists 0; split; [reflexivity|exact I])). discriminate Y.
Qed.
End Rejected.

(** * Atoms on the cutoff are in the table *)
Lemma on_cutoff_in_table (P D : Type) (dist : P -> P -> D) (leb : D -> D -> bool) (argsort : list D -> list nat) (zeroP : P) (zeroD : D) :
  total_preorder leb -> sorts leb argsort ->
  forall (atoms : list (Z * P)) (centres : list nat) (rcut : D) table, Forall (fun c => c < length atoms) centres ->
  key_neighs_info dist leb argsort zeroP zeroD atoms centres rcut = Ok table ->
  forall i c cen row j a, nth_error centres i = Some c -> nth_error atoms c = Some cen -> nth_error table i = Some row ->
  nth_error atoms j = Some a -> on_cutoff dist leb (snd cen) rcut a ->
  exists k, nth_error (fst (fst row)) k = Some (fst a) /\ nth_error (snd (fst row)) k = Some (dist (snd a) (snd cen)) /\ nth_error (snd row) k = Some (snd a).
Proof.
  intros Hp Hs atoms centres rcut table Hc E i c cen row j a Hi Hcen Hrow Hj [Hon _].
  destruct (table_ok dist leb argsort zeroP zeroD Hp Hs atoms centres rcut Hc) as [table' [sels [w [E' [Hn [_ [L1 [L2 H]]]]]]]].
  assert (table' = table) as -> by congruence.
  destruct (nth_error sels i) as [sel|] eqn:Es.
  2:{ apply nth_error_None in Es. assert (i < length centres) by (apply nth_error_Some; congruence). lia. }
  destruct (H i c sel row Hi Es Hrow) as [cen' [Hcen' [S1 [S2 S3]]]]. assert (cen' = cen) as -> by congruence.
  assert (Hsel : neighbours dist leb atoms rcut c sel).
  { clear - Hn Hi Es. revert i Hi Es. induction Hn as [|x y l l' Hxy Hl IH]; intros [|i] Hi Es; cbn in *; try discriminate.
    - congruence.
    - eauto. }
  destruct Hsel as [cen'' [Hcen'' [[_ Hin] _]]]. assert (cen'' = cen) as -> by congruence.
  assert (Hjs : In j sel) by (apply Hin; exists a; split; [exact Hj|exact Hon]).
  apply In_nth_error in Hjs as [k Hk]. exists k.
  assert (Hshow : forall (B : Type) (f : Z * P -> B) zero l, shows f zero w atoms sel l -> nth_error l k = Some (f a)).
  { intros B f zero l [vals [F [_ ->]]]. assert (nth_error vals k = Some (f a)) as Hv.
    { clear - F Hk Hj. revert k Hk. induction F as [|x y m m' Hxy F IH]; intros [|k] Hk; cbn in *; try discriminate.
      - destruct Hxy as [a' [Ha ->]]. congruence.
      - auto. }
    rewrite nth_error_app1; [exact Hv|]. apply nth_error_Some. congruence. }
  split; [exact (Hshow _ _ _ _ S1)|]. split; [exact (Hshow _ _ _ _ S2)|exact (Hshow _ _ _ _ S3)].
Qed.
