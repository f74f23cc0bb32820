(** The input of a force field: the arrays. *)
From Verif Require Import Arr Vec StructModel SiteIndexModel SeModel NeighModel StatsModel InferModel NeighSpec SeSpec SiteIndexSpec StructSpec InferSpec.
From Verif Require Import StructProofs StructGlue NeighProofs NeighCounts NeighPair NeighGlue NeighReal SeProofs SiteIndexProofs InferProofs InferGlue InferRows InferSpec.
From Coq Require Import ZifyBool.
Open Scope nat_scope.

Lemma mapM_enum_same {X Y W} (f : nat * Y -> result W) (g : X -> result W) (p : X -> Y) (l : list X) : (forall i x, nth_error l i = Some x -> f (i, p x) = g x) -> mapM f (enumerate (map p l)) = mapM g l.
Proof.
  unfold enumerate. rewrite map_length. intros H. assert (G : forall k, (forall i x, nth_error l i = Some x -> f (k + i, p x) = g x) -> mapM f (combine (seq k (length l)) (map p l)) = mapM g l).
  { clear H. induction l as [|x l IH]; intros k H; [reflexivity|]. cbn [length seq map combine mapM]. assert (H0 := H 0 x eq_refl). rewrite Nat.add_0_r in H0. rewrite H0, (IH (S k)); [reflexivity|].
    intros i y Hy. replace (S k + i) with (k + S i) by lia. apply H. exact Hy. }
  apply (G 0). exact H.
Qed.
Lemma rc_centre (sup : list (Z * vec)) w (key : list nat) (rests : list (list nat)) : length rests = length key -> key <> [] -> (forall r, In r rests -> S (length r) <= w) ->
  forall (zws : list (Z * nat)) c, zws <> [] -> (forall zw, In zw zws -> fst zw <> 0%Z) ->
  let inner := bind (mapM (fun jn : nat * Z => bind (get (map snd zws) (fst jn)) (fun m =>
    expand_rc vzero 0%R vsub (map (fun pr => canon vdist vzero 0%R sup w (fst pr) (fst pr :: snd pr)) (pairs_of key rests)) c (snd jn) m)) (enumerate (map fst zws))) hcat in
  (Forall (fun zw => real_of vzero sup c (fst zw) (pairs_of key rests) <= snd zw) zws -> exists y, inner = Ok y) /\
  (Exists (fun zw => snd zw < real_of vzero sup c (fst zw) (pairs_of key rests)) zws -> inner = Err AssertionError).
Proof.
  intros Lr Hkey Hw zws c Hne Hz. cbv zeta. set (table := map _ (pairs_of key rests)).
  rewrite (mapM_enum_same _ (fun zw => expand_rc vzero 0%R vsub table c (fst zw) (snd zw))) by (intros i zw Hi; cbn [fst snd]; rewrite (get_map snd _ _ _ Hi); reflexivity). split.
  - intros Fa. rewrite Forall_forall in Fa. rewrite (mapM_all _ (fun zw => map (fun pr => filled sup (fun pr j => vsub (snd (nth j sup (0%Z, vzero))) (snd (nth (fst pr) sup (0%Z, vzero)))) vzero pr zw) (chosen vzero sup key rests c))).
    + cbn [bind]. eexists. apply (hcat_maps (fun zw pr => filled sup (fun pr j => vsub (snd (nth j sup (0%Z, vzero))) (snd (nth (fst pr) sup (0%Z, vzero)))) vzero pr zw)). exact Hne.
    + intros zw Iz. apply rc_block; [exact Lr|exact Hkey|exact Hw|apply Hz, Iz|apply Fa, Iz].
  - intros Ex. apply Exists_exists in Ex. destruct Ex as (zw & Iz & Lt). rewrite (mapM_first _ AssertionError zws); [reflexivity| |].
    + intros zw' Iz'. destruct (le_lt_dec (real_of vzero sup c (fst zw') (pairs_of key rests)) (snd zw')) as [Le|Gt].
      * left. eexists. apply rc_block; [exact Lr|exact Hkey|exact Hw|apply Hz, Iz'|exact Le].
      * right. apply rc_narrow; [exact Lr|exact Hkey|exact Hw|apply Hz, Iz'|exact Gt].
    + exists zw. split; [exact Iz|]. apply rc_narrow; [exact Lr|exact Hkey|exact Hw|apply Hz, Iz|exact Lt].
Qed.

Section Final.
Variables (argsort : list R -> list nat) (rnd : R -> Z) (A B C : vec).
Hypothesis Hrnd : forall x, (Rabs (x - IZR (rnd x)) <= 1 / 2)%R.
Hypothesis Hsort : sorts Rleb argsort.
Hypothesis Hdet : det A B C <> 0%R.
Variables (rcut rs : R) (s0 s1 s2 : Z) (sites : list (Z * vec)).
Hypothesis O0 : positive_odd s0.
Hypothesis O1 : positive_odd s1.
Hypothesis O2 : positive_odd s2.
Hypothesis Hsep : separated (lattice_image A B C) (map snd sites).
Hypothesis Hrc : (0 <= rcut)%R.
Hypothesis Hrs : (rs < rcut)%R.
Hypothesis Hsites : sites <> [].
Variables (zws cols : list (Z * nat)) (cs : list (Z * (list R * list R))).
Hypothesis Hcs : cs <> [].
Hypothesis Hcols : map fst cols = map fst cs.
Hypothesis Hincl : incl cols zws.
Hypothesis Nzws : NoDup (map fst zws).
Hypothesis Ncs : NoDup (map fst cs).
Hypothesis Hpos : forall zw, In zw zws -> fst zw <> 0%Z /\ 0 < snd zw.
Hypothesis Hstats : forall ce, In ce cs -> length (fst (snd ce)) = 4 /\ length (snd (snd ce)) = 4.

Lemma stats_ok (f : Z * (list R * list R) -> list R) : (forall ce, In ce cs -> length (f ce) = 4) -> stats_shape (map fst cs) (map f cs) = true.
Proof.
  intros H. unfold stats_shape. rewrite !map_length, Nat.eqb_refl. cbn [andb]. apply forallb_forall. intros r Hr. apply in_map_iff in Hr. destruct Hr as (ce & <- & Ic). rewrite (H ce Ic). reflexivity.
Qed.
Lemma zws_nonempty : zws <> [].
Proof. intros ->. destruct cols as [|zw cols']; [apply Hcs; symmetry in Hcols; apply map_eq_nil in Hcols; exact Hcols|]. apply (Hincl zw). left. reflexivity. Qed.

Notation run := (preprocess argsort rnd A B C rcut rs s0 s1 s2 (map (fun ce => fst (snd ce)) cs) (map (fun ce => snd (snd ce)) cs) (map fst cs) (map fst zws) (map snd zws) true sites).

Lemma preprocess_all : exists E atoms centres,
  (forall d, (0 < length_of d)%R -> environment rcut rs d (E d)) /\ copies A B C s0 s1 s2 sites atoms /\
  map (nth_error atoms) centres = map Some (grouped (map fst cs) sites) /\
  (Forall (fits vdist Rleb atoms rcut zws) centres \/
   Exists (fun c => exists zw n, In zw zws /\ number (of_element (fst zw) (near vdist Rleb atoms rcut) c) atoms n /\ snd zw < n) centres) /\
  (Forall (fits vdist Rleb atoms rcut zws) centres -> exists out, run = Ok out /\
    length (rc out) = length centres /\ length (tildeR out) = length centres /\ length (tildeR_deriv out) = length centres /\ length (list_neigh out) = length centres /\
    natoms out = get_natoms vec None sites /\
    forall i c, nth_error centres i = Some c -> exists cen avg std pos env der ind,
      nth_error atoms c = Some cen /\ In (fst cen, (avg, std)) cs /\
      nth_error (rc out) i = Some pos /\ nth_error (tildeR out) i = Some env /\ nth_error (tildeR_deriv out) i = Some der /\ nth_error (list_neigh out) i = Some ind /\
      row_holds A B C sites atoms rcut vdist Rleb zws cols c cen avg std E pos env der ind) /\
  (Exists (fun c => exists zw n, In zw zws /\ number (of_element (fst zw) (near vdist Rleb atoms rcut) c) atoms n /\ snd zw < n) centres -> run = Err AssertionError).
Proof.
  assert (Hd := separated_distinct A B C _ Hsep).
  destruct (neighbors_v1_ok A B C Hdet argsort sites rcut s0 s1 s2 Hsort O0 O1 O2 Hd Hrc) as (sup & idxs & table & Es & Ek & En & Et & Em & Iso). unfold site in *.
  destruct (table_rests vdist Rleb argsort vzero 0%R Rleb_total Hsort sup idxs rcut Iso) as (table' & rests & w & Et' & F & Wd & Lr & Ec & _). assert (Q : table' = table) by congruence. rewrite Q in *. clear Q Et' table'. change (combine idxs rests) with (pairs_of idxs rests) in Ec.
  destruct (supercell_nodup A B C Hdet s0 s1 s2 true sites sup O0 O1 O2 Hd Es) as (Nsup & Img & _).
  assert (Hb : Forall (fun c => c < length sup) idxs) by (revert Iso; apply Forall_impl; intros c; apply isolated_bound).
  assert (Hkey : idxs <> []).
  { intros ->. cbn [map] in Em. symmetry in Em. apply map_eq_nil in Em. apply Hsites. assert (X := sort_perm _ (@fst Z vec) sites). unfold reformat_elements_ in Em. rewrite Em in X. apply Permutation_nil. apply Permutation_sym. exact X. }
  assert (Hw : forall r, In r rests -> S (length r) <= w).
  { intros r Hr. apply In_nth_error in Hr. destruct Hr as (i & Hi). assert (i < length rests) by (apply nth_error_Some; congruence). destruct (nth_error idxs i) as [c|] eqn:K; [|apply nth_error_None in K; lia].
    apply (proj1 Wd (c :: r)). apply in_map_iff. exists (c, r). split; [reflexivity|]. apply (nth_error_In _ i). clear - K Hi. revert rests i K Hi. induction idxs as [|k ks IH]; intros [|r' rs'] [|i] K1 K2; cbn in *; try discriminate; [congruence|apply IH; assumption]. }
  set (L := rows_of sup idxs rests cs). set (centres := map (fun cp => fst (snd cp)) L).
  assert (Cen : centres = flat_map (fun ce => centres_of sup (fst ce) idxs) cs).
  { unfold centres, L, rows_of. rewrite concat_map, map_map, flat_map_concat_map. f_equal. apply map_ext. intros ce. rewrite map_map. cbn [fst snd]. apply chosen_centres; assumption. }
  exists (fun d => py_tilde_row rcut rs (vnorm d) d), sup, centres.
  split; [intros d Hp; apply py_environment; assumption|]. split; [apply supercell_copies; assumption|]. split.
  { rewrite Cen. unfold grouped. clear - Em. induction cs as [|ce l IH]; [reflexivity|]. cbn [flat_map map]. rewrite !map_app, IH. f_equal. rewrite (centres_grouped sup _ idxs (fst ce) Em). f_equal. apply (sort_filter _ fst). }
  assert (Nb : forall pr, In pr (combine idxs rests) -> neighbours vdist Rleb sup rcut (fst pr) (fst pr :: snd pr)).
  { intros pr Ip. apply (forall2_in_combine _ _ _ _ F Ip). }
  assert (Sel : forall ce pr z, In (ce, pr) L -> pair_neighbours vdist Rleb sup rcut z (fst pr) (flt vzero sup z (snd pr))).
  { intros ce pr z I. apply in_rows in I. destruct I as [_ I]. cbn [fst snd] in I. apply chosen_in in I. apply flt_pair, Nb, I. }
  assert (InL : forall ce pr, In ce cs -> In pr (chosen vzero sup idxs rests (fst ce)) -> In (ce, pr) L).
  { intros ce pr I1 I2. apply in_concat. exists (map (fun pr => (ce, pr)) (chosen vzero sup idxs rests (fst ce))). split; [apply in_map_iff; exists ce; split; [reflexivity|exact I1]|apply in_map; exact I2]. }
  split.
  { destruct (Forall_Exists_dec (fun cp : (Z * (list R * list R)) * (nat * list nat) => Forall (fun zw => length (flt vzero sup (fst zw) (snd (snd cp))) <= snd zw) zws) (fun cp => Forall_dec _ (fun zw => le_dec _ _) zws) L) as [Fa|Ex].
    - left. unfold centres. apply Forall_forall. intros c Ic. apply in_map_iff in Ic. destruct Ic as ([ce pr] & <- & IL). rewrite Forall_forall in Fa. specialize (Fa _ IL). rewrite Forall_forall in Fa.
      intros zw Iz. exists (length (flt vzero sup (fst zw) (snd pr))). split; [exists (flt vzero sup (fst zw) (snd pr)); split; [apply (Sel ce pr (fst zw) IL)|reflexivity]|exact (Fa zw Iz)].
    - right. unfold centres. apply Exists_exists in Ex. destruct Ex as ([ce pr] & IL & Nf). apply Exists_exists. exists (fst pr). split; [apply (in_map (fun cp => fst (snd cp)) _ _ IL)|].
      destruct (Forall_Exists_dec (fun zw => length (flt vzero sup (fst zw) (snd pr)) <= snd zw) (fun zw => le_dec _ _) zws) as [Fa|Ez]; [destruct (Nf Fa)|]. apply Exists_exists in Ez. destruct Ez as (zw & Iz & Lt).
      exists zw, (length (flt vzero sup (fst zw) (snd pr))). split; [exact Iz|]. split; [exists (flt vzero sup (fst zw) (snd pr)); split; [apply (Sel ce pr (fst zw) IL)|reflexivity]|lia]. }
  assert (Run : run = bind (infer_rc (map fst cs) (map fst zws) (map snd zws) table) (fun rcs =>
    bind (normalize argsort A B C rcut rs s0 s1 s2 (map (fun ce => fst (snd ce)) cs) (map (fun ce => snd (snd ce)) cs) (map fst cs) (map fst zws) (map snd zws) sites) (fun ri =>
    bind (get_nbrs_indices vzero (get_site_index rnd A B C (map snd sites)) table (map fst cs) (map fst zws) (Some (map snd zws))) (fun ln => Ok (mk_inputs rcs (fst ri) (snd ri) ln (get_natoms vec None sites)))))).
  { unfold preprocess. rewrite En. cbn [bind]. rewrite !stats_ok by (intros ce Ic; apply (Hstats ce Ic)). reflexivity. }
  rewrite Run. clear Run. split.
  - intros Fit.
    assert (Hfit : forall c zw, In c (map fst cs) -> In zw zws -> real_of vzero sup c (fst zw) (pairs_of idxs rests) <= snd zw).
    { intros c zw Ic Iz. apply in_map_iff in Ic. destruct Ic as (ce & <- & Ic). unfold real_of. destruct (list_max0_spec (map (fun pr => if is_centre vzero sup (fst ce) (fst pr) then length (flt vzero sup (fst zw) (snd pr)) else 0) (pairs_of idxs rests))) as [_ [M|M]]; [lia|].
      apply in_map_iff in M. destruct M as (pr & M & Ip). rewrite <- M. destruct (is_centre vzero sup (fst ce) (fst pr)) eqn:K; [|lia].
      assert (IL : In (ce, pr) L) by (apply InL; [exact Ic|apply filter_In; split; assumption]).
      rewrite Forall_forall in Fit. destruct (Fit (fst pr) (in_map (fun cp => fst (snd cp)) _ _ IL) zw Iz) as (n & Nn & Le).
      assert (X := Sel ce pr (fst zw) IL). assert (length (flt vzero sup (fst zw) (snd pr)) = n) by (apply (number_unique _ sup _ _ (ex_intro _ _ (conj (proj1 X) eq_refl)) Nn)). lia. }
    assert (Hz : forall zw, In zw zws -> fst zw <> 0%Z) by (intros zw Iz; apply (Hpos zw Iz)).
    rewrite Ec in *.
    rewrite (all_rc sup w idxs rests Lr Hkey Hw zws cs zws_nonempty Hcs Hz Hfit). cbn [bind].
    rewrite (normalize_ok sup w idxs rests Lr Hkey Hw rcut rs zws cols cs Hcs Hz Hfit Hcols Hincl Nzws Ncs argsort A B C s0 s1 s2 sites En). cbn [bind].
    rewrite (all_index sup w idxs rests Lr Hkey Hw zws cs zws_nonempty Hcs Hz Hfit) by (intros zw Iz; apply (Hpos zw Iz)). cbn [bind].
    eexists. split; [reflexivity|]. cbn [rc tildeR tildeR_deriv list_neigh natoms fst snd].
    rewrite !map_map.
    rewrite (over_rows sup idxs rests cs (fun ce pr => concat (map (filled sup (fun pr j => vsub (snd (nth j sup (0%Z, vzero))) (snd (nth (fst pr) sup (0%Z, vzero)))) vzero pr) zws))).
    rewrite (over_rows sup idxs rests cs (fun ce pr => concat (map (filled sup (trow sup rcut rs (fst (snd ce)) (snd (snd ce))) (norm_row (fst (snd ce)) (snd (snd ce)) zero4) pr) cols))).
    rewrite (over_rows sup idxs rests cs (fun ce pr => concat (map (filled sup (drow sup rcut rs (snd (snd ce))) (norm_deriv (snd (snd ce)) zero43) pr) cols))).
    rewrite (over_rows sup idxs rests cs (fun ce pr => concat (map (indexed sup idxs rests (get_site_index rnd A B C (map snd sites)) (fst ce) pr) zws))).
    fold L. unfold centres. rewrite !map_length. do 5 (split; [reflexivity|]).
    intros i c Hi. rewrite nth_error_map in Hi. destruct (nth_error L i) as [[ce pr]|] eqn:Li; [|discriminate]. cbn [option_map fst snd] in Hi. assert (fst pr = c) by congruence. subst c. clear Hi.
    assert (IL := nth_error_In _ _ Li). destruct (in_rows _ _ _ _ _ IL) as [Ice Ich]. cbn [fst snd] in Ice, Ich. assert (Ich' := Ich). apply filter_In in Ich. destruct Ich as [Ipr Kc].
    assert (Bc : fst pr < length sup). { rewrite Forall_forall in Hb. apply Hb. destruct pr as [a b]. apply in_combine_l in Ipr. exact Ipr. }
    assert (Ecen := nth_error_nth' sup (0%Z, vzero) Bc). set (cen := nth (fst pr) sup (0%Z, vzero)) in *.
    assert (Fc : fst cen = fst ce) by (unfold is_centre in Kc; fold cen in Kc; apply Z.eqb_eq; exact Kc).
    destruct (Hstats ce Ice) as [L1 L2].
    exists cen, (fst (snd ce)), (snd (snd ce)). do 4 eexists. split; [exact Ecen|]. split; [rewrite Fc; destruct ce as [z [a b]]; exact Ice|].
    rewrite !nth_error_map, Li. cbn [option_map fst snd]. do 4 (split; [reflexivity|]).
    assert (Near : forall z j, In j (flt vzero sup z (snd pr)) -> exists a, nth_error sup j = Some a /\ nth j sup (0%Z, vzero) = a /\ (0 < length_of (vsub (snd a) (snd cen)))%R).
    { intros z j Ij. apply (proj2 (proj1 (Sel ce pr z IL))) in Ij. destruct Ij as (a & Ha & _ & _ & Nj). exists a. split; [exact Ha|]. split; [apply nth_error_nth; exact Ha|].
      rewrite length_of_vnorm. apply (vdist_pos (snd a) (snd cen)). intros Ea. apply Nj. apply (proj1 (NoDup_nth_error (map snd sup)) Nsup); [rewrite map_length; apply nth_error_Some; congruence|]. rewrite !nth_error_map, Ha, Ecen. cbn. rewrite Ea. reflexivity. }
    exists (fun z => flt vzero sup z (snd pr)). split.
    { intros zw Iz. split; [apply (Sel ce), IL|]. apply Nat.le_trans with (real_of vzero sup (fst ce) (fst zw) (pairs_of idxs rests)); [exact (sel_real sup idxs rests (fst ce) (fst zw) pr Ich')|apply Hfit; [apply in_map; exact Ice|exact Iz]]. }
    change (slots (fun z => flt vzero sup z (snd pr)) zws) with (concat (map (filled sup (fun _ j => Some j) None pr) zws)).
    change (slots (fun z => flt vzero sup z (snd pr)) cols) with (concat (map (filled sup (fun _ j => Some j) None pr) cols)).
    split; [|split; [|split]]; apply forall2_concat; intros zw Iz.
    + apply filled_slots; [|reflexivity]. intros j Ij. destruct (Near _ j Ij) as (a & Ha & -> & _). exists a. split; [exact Ha|reflexivity].
    + apply indexed_slots; [| | |split; [exact (sel_real sup idxs rests (fst ce) (fst zw) pr Ich')|apply Hfit; [apply in_map; exact Ice|exact Iz]]].
      * intros j Ij. destruct (Near _ j Ij) as (a & Ha & -> & _). destruct (Img j a Ha) as (m & Im). exists a, m. split; [exact Ha|]. split; [exact Im|]. apply (index_of_image A B C Hdet rnd Hrnd); assumption.
      * cbn [slot_index]. destruct (proj1 (site_index_spec rnd Hrnd A B C Hdet vzero (map snd sites) _) eq_refl) as [[E0 _]|(n & c & E1 & E2 & E3 & _)]; [left; exact E0|right].
        rewrite nth_error_map in E2. destruct (nth_error sites n) as [s|] eqn:En'; [|discriminate]. cbn [option_map] in E2. assert (snd s = c) by congruence. subst c. exists n, s. split; [exact En'|]. split; [exact E3|exact E1].
      * left. reflexivity.
    + apply filled_slots.
      * intros j Ij. destruct (Near _ j Ij) as (a & Ha & Ea & Hp). exists a. split; [exact Ha|]. unfold trow. rewrite Ea. fold cen. apply norm_row_normalized; [exact L1|exact L2|reflexivity].
      * apply norm_row_normalized; [exact L1|exact L2|reflexivity].
    + apply filled_slots.
      * intros j Ij. destruct (Near _ j Ij) as (a & Ha & Ea & Hp). exists a. split; [exact Ha|]. intros Hlt x b Hx Hbb. unfold drow. rewrite Ea. fold cen. apply deriv_slot; [exact Hrs|split; assumption|exact L2|exact Hx|exact Hbb].
      * intros x b. apply norm_deriv_zero. exact L2.
  - intros Ex. apply Exists_exists in Ex. destruct Ex as (c & Ic & zw & n & Iz & Nn & Lt). unfold centres in Ic. apply in_map_iff in Ic. destruct Ic as ([ce pr] & <- & IL). cbn [fst snd] in Nn.
    destruct (in_rows _ _ _ _ _ IL) as [Ice Ich]. cbn [fst snd] in Ice, Ich.
    assert (Big : snd zw < real_of vzero sup (fst ce) (fst zw) (pairs_of idxs rests)).
    { assert (X := Sel ce pr (fst zw) IL). assert (length (flt vzero sup (fst zw) (snd pr)) = n) by (apply (number_unique _ sup _ _ (ex_intro _ _ (conj (proj1 X) eq_refl)) Nn)).
      assert (Y := sel_real sup idxs rests (fst ce) (fst zw) pr Ich). lia. }
    replace (infer_rc _ _ _ _) with (@Err (list (list vec)) AssertionError); [reflexivity|]. symmetry. unfold infer_rc. rewrite Ec.
    assert (Hz : forall zw, In zw zws -> fst zw <> 0%Z) by (intros zw' Iz'; apply (Hpos zw' Iz')).
    rewrite (mapM_first _ AssertionError (map fst cs)); [reflexivity| |].
    + intros c _. destruct (Forall_Exists_dec (fun zw => real_of vzero sup c (fst zw) (pairs_of idxs rests) <= snd zw) (fun zw => le_dec _ _) zws) as [Fa|Exs].
      * left. apply (proj1 (rc_centre sup w idxs rests Lr Hkey Hw zws c zws_nonempty Hz)). exact Fa.
      * right. apply (proj2 (rc_centre sup w idxs rests Lr Hkey Hw zws c zws_nonempty Hz)). revert Exs. apply Exists_impl. intros zw' X. lia.
    + exists (fst ce). split; [apply in_map; exact Ice|]. apply (proj2 (rc_centre sup w idxs rests Lr Hkey Hw zws (fst ce) zws_nonempty Hz)). apply Exists_exists. exists zw. split; assumption.
Qed.

(** Sites grouped by element: the indices are row numbers. *)
Lemma grouped_rows out : run = Ok out -> sites = grouped (map fst cs) sites ->
  length (rc out) = length sites /\ length (list_neigh out) = length sites /\ length (tildeR out) = length sites /\ length (tildeR_deriv out) = length sites /\
  forall i k s pos ind v n, nth_error sites i = Some s -> nth_error (rc out) i = Some pos -> nth_error (list_neigh out) i = Some ind -> nth_error pos k = Some v -> nth_error ind k = Some n ->
  v = (0, 0, 0)%R \/ exists m s' (p q r : Z), nth_error sites m = Some s' /\ n = m + 1 /\ v = vsub (vadd (snd s') (comb A B C (IZR p) (IZR q) (IZR r))) (snd s).
Proof.
  intros Er Eg. destruct preprocess_all as (E & atoms & centres & HE & Hc & Hm & Dich & Hok & Hbad). destruct Dich as [Fit|Ex]; [|rewrite (Hbad Ex) in Er; discriminate].
  destruct (Hok Fit) as (out' & Er' & L1 & L2 & L3 & L4 & _ & Rows). assert (out' = out) by congruence. subst out'. rewrite <- Eg in Hm.
  assert (Lc : length centres = length sites) by (apply (f_equal (@length _)) in Hm; rewrite !map_length in Hm; exact Hm).
  split; [lia|]. split; [lia|]. split; [lia|]. split; [lia|].
  intros i k s pos ind v n Hs Hp Hi Hv Hn. assert (i < length centres) by (rewrite Lc; apply nth_error_Some; congruence). destruct (nth_error centres i) as [c|] eqn:Ec; [|apply nth_error_None in Ec; lia].
  destruct (Rows i c Ec) as (cen & avg & std & pos' & env & der & ind' & Ecen & _ & P1 & _ & _ & P4 & sel & _ & F1 & F2 & _). assert (pos' = pos) by congruence. assert (ind' = ind) by congruence. subst pos' ind'.
  assert (cen = s). { assert (X : nth_error (map (nth_error atoms) centres) i = nth_error (map Some sites) i) by (rewrite Hm; reflexivity). rewrite !nth_error_map, Ec, Hs in X. cbn in X. congruence. } subst cen.
  destruct (nth_error (slots sel zws) k) as [o|] eqn:Ko.
  - assert (S1 := forall2_nth _ _ _ F1 k o v Ko Hv). assert (S2 := forall2_nth _ _ _ F2 k o n Ko Hn). destruct o as [j|]; [right|left; exact S1]. destruct S1 as (a & Ha & ->), S2 as (a' & m & Ha' & (s' & p & q & r & Hs' & Ea) & ->). assert (Qa : a' = a) by congruence.
    exists m, s', p, q, r. split; [exact Hs'|]. split; [reflexivity|]. rewrite <- Qa, Ea. reflexivity.
  - apply nth_error_None in Ko. apply forall2_len in F1. assert (k < length pos) by (apply nth_error_Some; congruence). lia.
Qed.
End Final.
