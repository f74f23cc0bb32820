(** Statistics of a set of structures: the rows of a structure and of a set. *)
From Coq Require Import Permutation Lia ZifyBool.
From Verif Require Import Arr Vec StructModel SiteIndexModel SeModel NeighModel StatsModel InferModel SetStatsModel NeighSpec SeSpec SiteIndexSpec StructSpec InferSpec StatsSpec SetStatsSpec.
From Verif Require Import StructProofs StructGlue NeighProofs NeighCounts NeighPair NeighGlue NeighReal SeProofs SiteIndexProofs StatsProofs InferProofs InferGlue InferRows InferFinal SetStatsProofs.
From Verif Require Import NeighSpec InferSpec SetStatsSpec.
Local Open Scope nat_scope.

Section Rows.
Variables (argsort : list R -> list nat) (rcut rs : R) (s0 s1 s2 : Z).
Hypothesis Hsort : sorts Rleb argsort.
Hypothesis O0 : positive_odd s0.
Hypothesis O1 : positive_odd s1.
Hypothesis O2 : positive_odd s2.
Hypothesis Hrc : (0 <= rcut)%R.
Hypothesis Hrs : (rs < rcut)%R.
Notation structure_rows zws := (structure_rows argsort rcut rs s0 s1 s2 (map fst zws) (map snd zws)).
Notation sample zws := (sample argsort rcut rs s0 s1 s2 (map fst zws) (map snd zws)).
Definition raw (sup : list (Z * vec)) (pr : nat * list nat) (j : nat) : list R :=
  py_tilde_row rcut rs (vdist (snd (nth j sup (0%Z, vzero))) (snd (nth (fst pr) sup (0%Z, vzero)))) (vsub (snd (nth j sup (0%Z, vzero))) (snd (nth (fst pr) sup (0%Z, vzero)))).
Definition E (d : vec) : list R := py_tilde_row rcut rs (vnorm d) d.

Lemma structure_closed t c : regular t -> exists sup prs,
  copies (la t) (lb t) (lc t) s0 s1 s2 (atoms_of t) sup /\ map (nth_error sup) (map fst prs) = map Some (filter (fun s => (fst s =? c)%Z) (atoms_of t)) /\
  (forall pr z, In pr prs -> pair_neighbours vdist Rleb sup rcut z (fst pr) (flt vzero sup z (snd pr))) /\
  forall zws, ok_columns zws ->
    ((forall pr zw, In pr prs -> In zw zws -> length (flt vzero sup (fst zw) (snd pr)) <= snd zw) -> structure_rows zws c t = Ok (map (fun pr => concat (map (filled sup (raw sup) zero4 pr) zws)) prs)) /\
    ((exists pr zw, In pr prs /\ In zw zws /\ snd zw < length (flt vzero sup (fst zw) (snd pr))) -> structure_rows zws c t = Err ValueError).
Proof.
  intros (Hdet & Hsep & Hsites). set (A := la t) in *. set (B := lb t) in *. set (C := lc t) in *. set (sites := atoms_of t) in *.
  assert (Hd := separated_distinct A B C _ Hsep).
  destruct (neighbors_v1_ok A B C Hdet argsort sites rcut s0 s1 s2 Hsort O0 O1 O2 Hd Hrc) as (sup & idxs & table & Es & Ek & En & Et & Em & Iso). unfold site in *.
  destruct (table_rests vdist Rleb argsort vzero 0%R Rleb_total Hsort sup idxs rcut Iso) as (table' & rests & w & Et' & F & Wd & Lr & Ec & _). assert (Q : table' = table) by congruence. rewrite Q in *. clear Q Et' table'. change (combine idxs rests) with (pairs_of idxs rests) in Ec.
  assert (Hkey : idxs <> []).
  { intros ->. cbn [map] in Em. symmetry in Em. apply map_eq_nil in Em. apply Hsites. assert (X := sort_perm _ (@fst Z vec) sites). unfold reformat_elements_ in Em. rewrite Em in X. apply Permutation_nil. apply Permutation_sym. exact X. }
  assert (Hw : forall r, In r rests -> S (length r) <= w).
  { intros r Hr. apply In_nth_error in Hr. destruct Hr as (i & Hi). assert (i < length rests) by (apply nth_error_Some; congruence). destruct (nth_error idxs i) as [k|] eqn:K; [|apply nth_error_None in K; lia].
    apply (proj1 Wd (k :: r)). apply in_map_iff. exists (k, r). split; [reflexivity|]. apply (nth_error_In _ i). clear - K Hi. revert rests i K Hi. induction idxs as [|k' ks IH]; intros [|r' rs'] [|i] K1 K2; cbn in *; try discriminate; [congruence|apply IH; assumption]. }
  assert (Hb : Forall (fun c => c < length sup) idxs) by (revert Iso; apply Forall_impl; intros k; apply isolated_bound).
  exists sup, (chosen vzero sup idxs rests c). split; [apply supercell_copies; assumption|]. split.
  { rewrite chosen_centres by assumption. rewrite (centres_grouped sup _ idxs c Em). f_equal. apply (sort_filter _ fst). }
  split.
  { intros pr z I. apply chosen_in in I. apply flt_pair. exact (forall2_in_combine _ _ _ _ F I). }
  intros zws [Hne Hz]. unfold SetStatsModel.structure_rows. fold A B C sites. rewrite En. cbn [bind]. rewrite Ec.
  set (tab := map _ (pairs_of idxs rests)).
  rewrite (mapM_enum_same _ (fun zw => bind (extract_feature_pair vzero 0%R vsub tab c (fst zw)) (fun f => let '(real, (_, ds, rcs)) := f in widen zero4 real (snd zw) (pair_rows (py_tilde_row rcut rs) ds rcs)))).
  2: { intros i zw Hi. cbn [fst snd]. destruct (extract_feature_pair vzero 0%R vsub tab c (fst zw)) as [[real [[? ds] rcs]]|e]; [|reflexivity]. cbn [bind]. replace (get (map snd zws) i) with (Ok (snd zw)) by (symmetry; exact (get_map snd zws i zw Hi)). reflexivity. }
  assert (Good : forall zw, In zw zws -> real_of vzero sup c (fst zw) (pairs_of idxs rests) <= snd zw ->
    bind (extract_feature_pair vzero 0%R vsub tab c (fst zw)) (fun f => let '(real, (_, ds, rcs)) := f in widen zero4 real (snd zw) (pair_rows (py_tilde_row rcut rs) ds rcs)) = Ok (map (fun pr => filled sup (raw sup) zero4 pr zw) (chosen vzero sup idxs rests c))).
  { intros zw Iz Le. unfold tab. rewrite (extract_ok vdist vzero 0%R vsub sup w idxs rests Lr Hkey Hw c (fst zw) (proj1 (Hz zw Iz))). cbn [bind]. exact (pair_block sup idxs rests Lr (py_tilde_row rcut rs) zero4 c zw (tilde_zero _ _) Le). }
  assert (Bad : forall zw, In zw zws -> snd zw < real_of vzero sup c (fst zw) (pairs_of idxs rests) ->
    bind (extract_feature_pair vzero 0%R vsub tab c (fst zw)) (fun f => let '(real, (_, ds, rcs)) := f in widen zero4 real (snd zw) (pair_rows (py_tilde_row rcut rs) ds rcs)) = Err ValueError).
  { intros zw Iz Lt. unfold tab. rewrite (extract_ok vdist vzero 0%R vsub sup w idxs rests Lr Hkey Hw c (fst zw) (proj1 (Hz zw Iz))). cbn [bind]. unfold widen. replace (_ <=? snd zw) with false by lia. assert (P := proj2 (Hz zw Iz)). replace (snd zw =? 0) with false by lia. rewrite andb_false_r. reflexivity. }
  split.
  - intros Fit. rewrite (mapM_all _ (fun zw => map (fun pr => filled sup (raw sup) zero4 pr zw) (chosen vzero sup idxs rests c))).
    + cbn [bind]. apply (hcat_maps (fun zw pr => filled sup (raw sup) zero4 pr zw)). exact Hne.
    + intros zw Iz. apply (Good zw Iz). unfold real_of. destruct (list_max0_spec (map (fun pr => if is_centre vzero sup c (fst pr) then length (flt vzero sup (fst zw) (snd pr)) else 0) (pairs_of idxs rests))) as [_ [M|M]]; [lia|].
      apply in_map_iff in M. destruct M as (pr & M & Ip). rewrite <- M. destruct (is_centre vzero sup c (fst pr)) eqn:K; [|lia]. apply Fit; [apply filter_In; split; assumption|exact Iz].
  - intros (pr & zw & Ip & Iz & Lt). rewrite (mapM_first _ ValueError zws); [reflexivity| |].
    + intros zw' Iz'. destruct (le_lt_dec (real_of vzero sup c (fst zw') (pairs_of idxs rests)) (snd zw')) as [Le|Gt]; [left; eexists; exact (Good zw' Iz' Le)|right; exact (Bad zw' Iz' Gt)].
    + exists zw. split; [exact Iz|]. apply (Bad zw Iz). assert (Y := sel_real sup idxs rests c (fst zw) pr Ip). lia.
Qed.

(** Positions of centres and sites. *)
Lemma centre_of (sup : list (Z * vec)) (prs : list (nat * list nat)) c (sites : list (Z * vec)) : map (nth_error sup) (map fst prs) = map Some (filter (fun s => (fst s =? c)%Z) sites) ->
  (forall pr, In pr prs -> exists s, nth_error sup (fst pr) = Some s /\ In s sites /\ fst s = c).
Proof.
  intros Em pr I. assert (X : In (nth_error sup (fst pr)) (map (nth_error sup) (map fst prs))) by (apply in_map, in_map; exact I). rewrite Em in X. apply in_map_iff in X. destruct X as (s & X & Is). apply filter_In in Is. destruct Is as [Is Ks]. exists s. split; [symmetry; exact X|]. split; [exact Is|lia].
Qed.
Lemma centre_pair (sup : list (Z * vec)) (prs : list (nat * list nat)) c (sites : list (Z * vec)) i s : NoDup (map snd sup) -> map (nth_error sup) (map fst prs) = map Some (filter (fun s => (fst s =? c)%Z) sites) ->
  In s sites -> fst s = c -> nth_error sup i = Some s -> exists pr, In pr prs /\ fst pr = i.
Proof.
  intros Nd Em Is Fs Hi. assert (X : In (Some s) (map (nth_error sup) (map fst prs))) by (rewrite Em; apply in_map, filter_In; split; [exact Is|lia]). rewrite map_map in X. apply in_map_iff in X. destruct X as (pr & X & Ip). exists pr. split; [exact Ip|].
  apply (proj1 (NoDup_nth_error (map snd sup)) Nd); [rewrite map_length; apply nth_error_Some; congruence|]. rewrite !nth_error_map, X, Hi. reflexivity.
Qed.

Lemma E_environment d : (0 < length_of d)%R -> environment rcut rs d (E d).
Proof. intros H. apply py_environment; assumption. Qed.
Lemma E_four d : length (E d) = 4.
Proof. reflexivity. Qed.

Section Columns.
Variable zws : list (Z * nat).
Hypothesis Hzws : ok_columns zws.
Lemma room_fit t c sup prs : copies (la t) (lb t) (lc t) s0 s1 s2 (atoms_of t) sup -> map (nth_error sup) (map fst prs) = map Some (filter (fun s => (fst s =? c)%Z) (atoms_of t)) ->
  (forall pr z, In pr prs -> pair_neighbours vdist Rleb sup rcut z (fst pr) (flt vzero sup z (snd pr))) -> room rcut s0 s1 s2 zws c t ->
  forall pr zw, In pr prs -> In zw zws -> length (flt vzero sup (fst zw) (snd pr)) <= snd zw.
Proof.
  intros Hc Hm Sel Hr pr zw Ip Iz. destruct (centre_of _ _ _ _ Hm pr Ip) as (s & Hs & Is & Fs). destruct (Hr sup (fst pr) s Hc Is Fs Hs zw Iz) as (n & Nn & Le).
  assert (X := Sel pr (fst zw) Ip). assert (length (flt vzero sup (fst zw) (snd pr)) = n) by (apply (number_unique _ sup _ _ (ex_intro _ _ (conj (proj1 X) eq_refl)) Nn)). lia.
Qed.
Lemma structure_ok t c : regular t -> room rcut s0 s1 s2 zws c t -> exists block, structure_rows zws c t = Ok block /\ rows_of_structure rcut s0 s1 s2 zws c E t block /\ length block = number_of t c.
Proof.
  intros Ht Hr. destruct (structure_closed t c Ht) as (sup & prs & Hc & Hm & Sel & H). destruct (H zws Hzws) as [Hok _]. clear H. assert (Fit := room_fit t c sup prs Hc Hm Sel Hr). eexists. split; [exact (Hok Fit)|]. split.
  - exists sup, (map fst prs). split; [exact Hc|]. split; [exact Hm|]. apply forall2_map. intros pr Ip. destruct (centre_of _ _ _ _ Hm pr Ip) as (s & Hs & _). exists s, (fun z => flt vzero sup z (snd pr)). split; [exact Hs|]. split.
    + intros zw Iz. split; [apply Sel; exact Ip|apply Fit; assumption].
    + change (slots (fun z => flt vzero sup z (snd pr)) zws) with (concat (map (filled sup (fun _ j => Some j) None pr) zws)). apply forall2_concat. intros zw Iz. apply filled_slots; [|reflexivity].
      intros j Ij. apply (proj2 (proj1 (Sel pr (fst zw) Ip))) in Ij. destruct Ij as (a & Ha & _). exists a. split; [exact Ha|]. unfold raw, E. rewrite (nth_error_nth _ _ _ Ha), (nth_error_nth _ _ _ Hs). reflexivity.
  - apply (f_equal (@length _)) in Hm. rewrite !map_length in Hm. rewrite map_length. exact Hm.
Qed.
Lemma structure_narrow t c : regular t -> no_room rcut s0 s1 s2 zws c t -> structure_rows zws c t = Err ValueError.
Proof.
  intros Ht Hn. destruct (structure_closed t c Ht) as (sup & prs & Hc & Hm & Sel & H). destruct (H zws Hzws) as [_ Hbad]. apply Hbad. destruct (Hn sup Hc) as (i & s & zw & n & Is & Fs & Hi & Iz & Nn & Lt).
  destruct (centre_pair sup prs c _ i s (proj1 Hc) Hm Is Fs Hi) as (pr & Ip & <-). exists pr, zw. split; [exact Ip|]. split; [exact Iz|].
  assert (X := Sel pr (fst zw) Ip). assert (length (flt vzero sup (fst zw) (snd pr)) = n) by (apply (number_unique _ sup _ _ (ex_intro _ _ (conj (proj1 X) eq_refl)) Nn)). lia.
Qed.
Lemma structure_value t c : regular t -> (exists block, structure_rows zws c t = Ok block /\ length block = number_of t c) \/ structure_rows zws c t = Err ValueError.
Proof.
  intros Ht. destruct (structure_closed t c Ht) as (sup & prs & Hc & Hm & Sel & H). destruct (H zws Hzws) as [Hok Hbad].
  destruct (Forall_Exists_dec (fun pr => Forall (fun zw => length (flt vzero sup (fst zw) (snd pr)) <= snd zw) zws) (fun pr => Forall_dec _ (fun zw => le_dec _ _) zws) prs) as [Fa|Ex].
  - left. eexists. split; [apply Hok; intros pr zw Ip Iz; rewrite Forall_forall in Fa; specialize (Fa pr Ip); rewrite Forall_forall in Fa; exact (Fa zw Iz)|].
    apply (f_equal (@length _)) in Hm. rewrite !map_length in Hm. rewrite map_length. exact Hm.
  - right. apply Hbad. apply Exists_exists in Ex. destruct Ex as (pr & Ip & Nf). destruct (Forall_Exists_dec (fun zw => length (flt vzero sup (fst zw) (snd pr)) <= snd zw) (fun zw => le_dec _ _) zws) as [Fa|Ez]; [destruct (Nf Fa)|]. apply Exists_exists in Ez. destruct Ez as (zw & Iz & Lt).
    exists pr, zw. split; [exact Ip|]. split; [exact Iz|lia].
Qed.

(** *** Sets *)
Lemma pick_ok {X} (l : list X) i x : picked l i x <-> pick l i = Ok x.
Proof.
  unfold picked, pick, get. split.
  - intros [[H1 H2]|(k & -> & H1 & H2)].
    + replace (i <? 0)%Z with false by lia. rewrite H2. replace (i <? 0)%Z with false by lia. reflexivity.
    + replace (- Z.of_nat k <? 0)%Z with true by lia. replace (- Z.of_nat k + Z.of_nat (length l) <? 0)%Z with false by lia. replace (Z.to_nat (- Z.of_nat k + Z.of_nat (length l))) with (length l - k) by lia. rewrite H2. reflexivity.
  - destruct (i <? 0)%Z eqn:Ei.
    + destruct (i + Z.of_nat (length l) <? 0)%Z eqn:Ej; [discriminate|]. destruct (nth_error l (Z.to_nat (i + Z.of_nat (length l)))) as [y|] eqn:En; [|discriminate]. intros Q. right. exists (Z.to_nat (- i)). split; [lia|]. split; [lia|].
      replace (length l - Z.to_nat (- i)) with (Z.to_nat (i + Z.of_nat (length l))) by lia. congruence.
    + rewrite Ei. destruct (nth_error l (Z.to_nat i)) as [y|] eqn:En; [|discriminate]. intros Q. left. split; [lia|]. congruence.
Qed.
Lemma pick_outside {X} (l : list X) i : outside l i -> pick l i = Err IndexError.
Proof.
  unfold outside, pick, get. intros [H|H].
  - replace (i <? 0)%Z with true by lia. replace (i + Z.of_nat (length l) <? 0)%Z with true by lia. reflexivity.
  - replace (i <? 0)%Z with false by lia. replace (i <? 0)%Z with false by lia. replace (nth_error l (Z.to_nat i)) with (@None X); [reflexivity|]. symmetry. apply nth_error_None. lia.
Qed.
Lemma picks {X} (l : list X) is ts : Forall2 (picked l) is ts -> mapM (pick l) is = Ok ts.
Proof. intros F. induction F as [|i t is ts H F IH]; [reflexivity|]. cbn [mapM]. rewrite (proj1 (pick_ok l i t) H). cbn [bind]. rewrite IH. reflexivity. Qed.
Lemma mapM_forall2 {X Y} (f : X -> result Y) (Q : X -> Y -> Prop) l : (forall x, In x l -> exists y, f x = Ok y /\ Q x y) -> exists r, mapM f l = Ok r /\ Forall2 Q l r.
Proof.
  induction l as [|x l IH]; intros H; [exists []; split; [reflexivity|constructor]|]. destruct (H x (or_introl eq_refl)) as (y & Ey & Qy). destruct IH as (r & Er & Fr); [intros z Iz; apply H; right; exact Iz|]. exists (y :: r). cbn [mapM]. rewrite Ey. cbn [bind]. rewrite Er. split; [reflexivity|constructor; assumption].
Qed.
Lemma forall2_in_r {X Y} (Q : X -> Y -> Prop) l r y : Forall2 Q l r -> In y r -> exists x, In x l /\ Q x y.
Proof. intros F. induction F as [|x z l r H F IH]; [intros []|]. intros [<-|I]; [exists x; split; [left; reflexivity|exact H]|]. destruct (IH I) as (x' & Ix & Hx). exists x'. split; [right; exact Ix|exact Hx]. Qed.
Lemma forall2_in_l {X Y} (Q : X -> Y -> Prop) l r x : Forall2 Q l r -> In x l -> exists y, In y r /\ Q x y.
Proof. intros F. induction F as [|z y l r H F IH]; [intros []|]. intros [<-|I]; [exists y; split; [left; reflexivity|exact H]|]. destruct (IH I) as (y' & Iy & Hy). exists y'. split; [right; exact Iy|exact Hy]. Qed.

Lemma sample_ok ss is ts c k : Forall2 (picked ss) is ts -> ts <> [] -> Forall regular ts -> Forall (room rcut s0 s1 s2 zws c) ts -> (forall t, In t ts -> number_of t c = k) ->
  exists blocks rows, Forall2 (rows_of_structure rcut s0 s1 s2 zws c E) ts blocks /\ sample zws ss is c = Ok rows /\ Permutation rows (flat_map as_rows blocks).
Proof.
  intros Hp Hne Hreg Hroom Hk. rewrite Forall_forall in Hreg, Hroom.
  destruct (mapM_forall2 (structure_rows zws c) (fun t b => rows_of_structure rcut s0 s1 s2 zws c E t b /\ length b = number_of t c) ts) as (blocks & Eb & Fb); [intros t It; apply structure_ok; auto|].
  destruct (hcat_works blocks) as [b Hb].
  - intros ->. inversion Fb; subst. contradiction.
  - intros p q Ip Iq. destruct (forall2_in_r _ _ _ _ Fb Ip) as (t & It & _ & ->), (forall2_in_r _ _ _ _ Fb Iq) as (t' & It' & _ & ->). rewrite (Hk t It), (Hk t' It'). reflexivity.
  - exists blocks, (map row_of (concat b)). split; [|split].
    + clear - Fb. induction Fb as [|t b l r [H _] F IH]; constructor; assumption.
    + unfold SetStatsModel.sample. rewrite (picks ss is ts Hp). cbn [bind]. rewrite Eb. cbn [bind]. rewrite Hb. reflexivity.
    + destruct (hcat_some blocks b Hb) as (_ & _ & P). rewrite P. clear. induction blocks as [|x l IH]; [constructor|]. cbn [map concat flat_map]. rewrite map_app. unfold as_rows at 1. apply Permutation_app_head. exact IH.
Qed.
Lemma sample_narrow ss is ts c : Forall2 (picked ss) is ts -> Forall regular ts -> Exists (no_room rcut s0 s1 s2 zws c) ts -> sample zws ss is c = Err ValueError.
Proof.
  intros Hp Hreg Ex. rewrite Forall_forall in Hreg. apply Exists_exists in Ex. destruct Ex as (t & It & Hn). unfold SetStatsModel.sample. rewrite (picks ss is ts Hp). cbn [bind]. rewrite (mapM_first _ ValueError ts); [reflexivity| |].
  - intros x Ix. destruct (structure_value x c (Hreg x Ix)) as [(b & Hb & _)|Hb]; [left; exists b; exact Hb|right; exact Hb].
  - exists t. split; [exact It|]. apply structure_narrow; [apply Hreg; exact It|exact Hn].
Qed.
Lemma sample_unequal ss is ts c t t' : Forall2 (picked ss) is ts -> Forall regular ts -> In t ts -> In t' ts -> number_of t c <> number_of t' c -> sample zws ss is c = Err ValueError.
Proof.
  intros Hp Hreg It It' Hn. rewrite Forall_forall in Hreg. unfold SetStatsModel.sample. rewrite (picks ss is ts Hp). cbn [bind].
  destruct (mapM (structure_rows zws c) ts) as [blocks|e] eqn:Eb.
  - cbn [bind]. assert (Fb : Forall2 (fun t b => length b = number_of t c) ts blocks).
    { clear - Eb Hreg Hzws Hsort O0 O1 O2 Hrc Hrs. revert blocks Eb. induction ts as [|x l IH]; intros blocks H; [injection H as <-; constructor|]. cbn [mapM] in H. destruct (structure_rows zws c x) as [b|e] eqn:Ex; [|discriminate]. cbn [bind] in H. destruct (mapM _ l) as [q|e] eqn:El; [|discriminate]. cbn [bind] in H. injection H as <-.
      constructor; [|apply IH; [intros y Iy; apply Hreg; right; exact Iy|reflexivity]]. destruct (structure_value x c (Hreg x (or_introl eq_refl))) as [(b' & Hb & L)|Hb]; [congruence|congruence]. }
    destruct (forall2_in_l _ _ _ _ Fb It) as (p & Ip & Lp), (forall2_in_l _ _ _ _ Fb It') as (q & Iq & Lq). rewrite (hcat_differs blocks p q Ip Iq); [reflexivity|congruence].
  - cbn [bind]. assert (X : e = ValueError); [|rewrite X; reflexivity]. clear - Eb Hreg Hzws Hsort O0 O1 O2 Hrc Hrs. induction ts as [|x l IH]; [discriminate|]. cbn [mapM] in Eb. destruct (structure_value x c (Hreg x (or_introl eq_refl))) as [(b' & Hb & L)|Hb]; rewrite Hb in Eb; cbn [bind] in Eb; [|congruence].
    destruct (mapM _ l) as [q|e'] eqn:El; [discriminate|]. cbn [bind] in Eb. apply IH; [intros y Iy; apply Hreg; right; exact Iy|congruence].
Qed.
End Columns.
End Rows.
