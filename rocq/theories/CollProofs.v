(** Lemmas about the counts of a collection and about the writers. *)
From Coq Require Import String.
From Verif Require Import Arr Vec StructModel StructSpec SiteIndexModel SiteIndexSpec StructProofs NeighModel NeighSpec NeighProofs NeighCounts NeighPair NeighGlue NeighReal AvgModel DataModel PertModel CollModel CollSpec.
From Verif Require DataText.
From Coq Require Import ZifyBool.
Open Scope nat_scope.

Lemma mapM_forall2 {A B} (f : A -> result B) (Q : A -> B -> Prop) l : (forall a, In a l -> exists b, f a = Ok b /\ Q a b) ->
  exists bs, mapM f l = Ok bs /\ Forall2 Q l bs.
Proof.
  induction l as [|a l IH]; intros H; [exists []; split; [reflexivity|constructor]|].
  destruct (H a (or_introl eq_refl)) as (b & E & Hb). destruct (IH (fun x Hx => H x (or_intror Hx))) as (bs & E2 & F).
  exists (b :: bs). split; [cbn; rewrite E; cbn; rewrite E2; reflexivity|constructor; assumption].
Qed.
Lemma forall2_in_l {A B} (Q : A -> B -> Prop) l1 l2 a : Forall2 Q l1 l2 -> In a l1 -> exists b, In b l2 /\ Q a b.
Proof. induction 1 as [|x y l1 l2 H F IH]; intros I; [destruct I|]. destruct I as [->|I]; [exists y; split; [left; reflexivity|exact H]|]. destruct (IH I) as (b & Ib & Hb). exists b. split; [right; exact Ib|exact Hb]. Qed.
Lemma forall2_in_r {A B} (Q : A -> B -> Prop) l1 l2 b : Forall2 Q l1 l2 -> In b l2 -> exists a, In a l1 /\ Q a b.
Proof. induction 1 as [|x y l1 l2 H F IH]; intros I; [destruct I|]. destruct I as [->|I]; [exists x; split; [left; reflexivity|exact H]|]. destruct (IH I) as (a & Ia & Ha). exists a. split; [right; exact Ia|exact Ha]. Qed.

Lemma fold_max_spec l : forall x, (forall y, In y (x :: l) -> (y <= fold_left Z.max l x)%Z) /\ In (fold_left Z.max l x) (x :: l).
Proof.
  induction l as [|a l IH]; intros x; cbn [fold_left]; [split; [intros y [->|[]]; lia|left; reflexivity]|].
  destruct (IH (Z.max x a)) as [H1 H2]. split.
  - intros y [<-|[<-|Hy]]; [specialize (H1 _ (or_introl eq_refl)); lia|specialize (H1 _ (or_introl eq_refl)); lia|apply H1; right; exact Hy].
  - destruct H2 as [E|I]; [|right; right; exact I]. rewrite <- E. destruct (Z.max_spec x a) as [[_ ->]|[_ ->]]; [right; left; reflexivity|left; reflexivity].
Qed.

Section Frames.
Variables (rcut : R) (s0 s1 s2 : Z).
Hypotheses (O0 : positive_odd s0) (O1 : positive_odd s1) (O2 : positive_odd s2) (Hr : (0 <= rcut)%R).

(** The atoms of a frame, with any sorting function. *)
Lemma frame_ready argsort f : sorts Rleb argsort -> regular f ->
  exists sup idxs table, frame_atoms f s0 s1 s2 sup idxs /\
    get_key_idxs vec (translate_R (fr_a f) (fr_b f) (fr_c f)) s0 s1 s2 (fr_sites f) = Ok idxs /\
    structure_neighbors_v1 argsort (fr_a f) (fr_b f) (fr_c f) (fr_sites f) rcut s0 s1 s2 true = Ok table /\
    key_neighs_info vdist Rleb argsort vzero 0%R sup idxs rcut = Ok table /\
    Forall (isolated vdist Rleb sup rcut) idxs /\ Forall (fun c => c < length sup) idxs.
Proof.
  intros Hs [Hd Hx]. destruct (neighbors_v1_ok (fr_a f) (fr_b f) (fr_c f) Hd argsort (fr_sites f) rcut s0 s1 s2 Hs O0 O1 O2 Hx Hr) as (sup & idxs & table & Es & Ek & En & Et & Em & Iso).
  exists sup, idxs, table. split; [split; assumption|]. split; [exact Ek|]. split; [exact En|]. split; [exact Et|]. split; [exact Iso|].
  revert Iso. apply Forall_impl. intros c. apply isolated_bound.
Qed.
Let srt := insertion_argsort Rleb.
Let srt_ok : sorts Rleb srt := insertion_sorts Rleb Rleb_total.

Lemma frame_count f : regular f -> exists z, frame_max_nbrs rcut s0 s1 s2 f = Ok z /\ exists n, z = (Z.of_nat n - 1)%Z /\ frame_number (closer rcut) s0 s1 s2 f n.
Proof.
  intros Hf. destruct (frame_ready srt f srt_ok Hf) as (sup & idxs & table & [Es Em] & Ek & _ & _ & _ & Hb).
  destruct (width_and_count vdist Rleb srt vzero 0%R Rleb_total srt_ok sup idxs rcut Hb) as (t & m & w & _ & E2 & _ & _ & L2 & _ & _).
  exists (Z.of_nat m - 1)%Z. split; [unfold frame_max_nbrs, structure_max_nbrs; rewrite Ek; cbn [bind]; rewrite Es; exact E2|].
  exists m. split; [reflexivity|]. exists sup, idxs. split; [split; assumption|exact L2].
Qed.
Lemma collection_count cpus frames : (3 <= cpus)%Z -> frames <> [] -> Forall regular frames ->
  exists m, collection_max_nbrs rcut s0 s1 s2 cpus frames = Ok (Z.of_nat m - 1)%Z /\ largest_of_frames (closer rcut) s0 s1 s2 frames m.
Proof.
  intros Hc Hne Hf. rewrite Forall_forall in Hf.
  destruct (mapM_forall2 (frame_max_nbrs rcut s0 s1 s2) (fun f z => exists n, z = (Z.of_nat n - 1)%Z /\ frame_number (closer rcut) s0 s1 s2 f n) frames (fun f I => frame_count f (Hf f I))) as (zs & E & F).
  unfold collection_max_nbrs, starmap. replace (cpus - 2 <? 1)%Z with false by lia. rewrite E. cbn [bind].
  destruct zs as [|x r]; [inversion F; congruence|]. destruct (fold_max_spec r x) as [M1 M2].
  destruct (forall2_in_r _ _ _ _ F M2) as (f & If & n & En & Hn). exists n. rewrite En. split; [reflexivity|]. split; [|exists f; split; assumption].
  intros g Ig. destruct (forall2_in_l _ _ _ _ F Ig) as (z & Iz & k & Ez & Hk). exists k. split; [exact Hk|]. specialize (M1 z Iz). lia.
Qed.

(** Dictionaries. *)
Definition has_key (d : dict) (k : string) : Prop := exists v, lookup d k = Ok v.
Lemma lookup_in d k : In k (map fst d) <-> has_key d k.
Proof.
  unfold has_key. induction d as [|[k' v] d IH]; cbn; [split; [intros []|intros (v & E); discriminate]|].
  destruct (String.eqb_spec k k') as [->|N]; [split; [intros _; exists v; reflexivity|intros _; left; reflexivity]|].
  rewrite <- IH. split; [intros [E|I]; [congruence|exact I]|intros I; right; exact I].
Qed.
Lemma has_update d k v x : has_key d k -> (has_key (update d k v) x <-> has_key d x).
Proof. intros (w & E). unfold has_key. rewrite lookup_update. destruct (String.eqb_spec x k) as [->|N]; [|tauto]. split; intros _; [exists w; exact E|exists v; reflexivity]. Qed.

Definition valof (d : dict) (k : string) : nat := match lookup d k with Ok v => v | Err _ => 0 end.
Lemma merge_inner d : forall ks acc, (forall k, In k ks -> has_key d k /\ has_key acc k) ->
  exists acc', foldM (fun acc k => bind (lookup d k) (fun v => bind (lookup acc k) (fun old => Ok (if old <? v then update acc k v else acc)))) ks acc = Ok acc' /\
    (forall x, has_key acc' x <-> has_key acc x) /\
    (forall x, valof acc' x = if existsb (String.eqb x) ks then Nat.max (valof acc x) (valof d x) else valof acc x).
Proof.
  induction ks as [|k ks IH]; intros acc H; [exists acc; split; [reflexivity|]; split; [tauto|reflexivity]|].
  destruct (H k (or_introl eq_refl)) as [(v & Ev) (o & Eo)]. cbn [foldM]. rewrite Ev. cbn [bind]. rewrite Eo. cbn [bind].
  set (acc1 := if o <? v then update acc k v else acc).
  assert (K : forall x, has_key acc1 x <-> has_key acc x). { intros x. unfold acc1. destruct (o <? v); [apply has_update; exists o; exact Eo|tauto]. }
  destruct (IH acc1) as (acc' & E & K' & V). { intros x Hx. destruct (H x (or_intror Hx)) as [H1 H2]. split; [exact H1|apply K; exact H2]. }
  exists acc'. split; [exact E|]. split; [intros x; rewrite K'; apply K|].
  assert (V1 : forall x, valof acc1 x = if String.eqb x k then Nat.max (valof acc x) (valof d x) else valof acc x).
  { intros x. unfold acc1. destruct (String.eqb_spec x k) as [->|N].
    - destruct (o <? v) eqn:L; unfold valof; rewrite ?lookup_update, ?String.eqb_refl, Ev, Eo; apply Nat.ltb_lt in L || apply Nat.ltb_ge in L; lia.
    - destruct (o <? v); [|reflexivity]. unfold valof. rewrite lookup_update. destruct (String.eqb_spec x k); [congruence|reflexivity]. }
  intros x. rewrite V. cbn [existsb]. rewrite V1. destruct (String.eqb x k); cbn [orb]; destruct (existsb (String.eqb x) ks); lia.
Qed.
Lemma merge_outer (keys : string -> Prop) ds : forall acc, (forall d, In d ds -> forall x, has_key d x <-> keys x) -> (forall x, has_key acc x <-> keys x) ->
  exists acc', foldM (fun acc d => foldM (fun acc k => bind (lookup d k) (fun v => bind (lookup acc k) (fun old =>
    Ok (if old <? v then update acc k v else acc)))) (map fst d) acc) ds acc = Ok acc' /\
    (forall x, has_key acc' x <-> keys x) /\
    forall x, keys x -> (forall y, In y (valof acc x :: map (fun d => valof d x) ds) -> y <= valof acc' x) /\ In (valof acc' x) (valof acc x :: map (fun d => valof d x) ds).
Proof.
  induction ds as [|d ds IH]; intros acc Hd Ha; [exists acc; split; [reflexivity|]; split; [exact Ha|]; intros x _; split; [intros y [<-|[]]; lia|left; reflexivity]|].
  cbn [foldM]. destruct (merge_inner d (map fst d) acc) as (a1 & E & K & V).
  { intros k Hk. assert (hk : has_key d k) by (apply lookup_in; exact Hk). split; [exact hk|]. apply Ha. apply (Hd d (or_introl eq_refl)). exact hk. }
  rewrite E. cbn [bind]. destruct (IH a1 (fun x Hx => Hd x (or_intror Hx))) as (a2 & E2 & K2 & M). { intros x. rewrite K. apply Ha. }
  exists a2. split; [exact E2|]. split; [exact K2|]. intros x Hx. destruct (M x Hx) as [M1 M2].
  assert (V1 : valof a1 x = Nat.max (valof acc x) (valof d x)).
  { rewrite V. replace (existsb (String.eqb x) (map fst d)) with true; [reflexivity|]. symmetry. apply existsb_exists. exists x. split; [|apply String.eqb_refl]. apply lookup_in. apply (Hd d (or_introl eq_refl)). exact Hx. }
  rewrite V1 in M1, M2. split.
  - intros y [<-|[<-|Hy]]; [specialize (M1 _ (or_introl eq_refl)); lia|specialize (M1 _ (or_introl eq_refl)); lia|apply M1; right; exact Hy].
  - destruct M2 as [E3|I]; [|right; right; exact I]. rewrite <- E3. destruct (Nat.max_spec (valof acc x) (valof d x)) as [[_ ->]|[_ ->]]; [right; left; reflexivity|left; reflexivity].
Qed.

Variable an : string -> result Z.
Variable elements : list string.
Hypothesis Han : forall e, In e elements -> exists z, an e = Ok z.

(** Keys of the dictionary of one frame. *)
Lemma element_keys sup rcut' idxs : Forall (fun c => c < length sup) idxs -> forall d, (forall x, has_key d x <-> In x elements) ->
  forall d', foldM (fun d c => foldM (fun d e =>
    bind (an e) (fun z => bind (count_element vdist Rleb sup rcut' z c) (fun k =>
    bind (lookup d e) (fun old => Ok (if old <? k then update d e k else d))))) elements d) idxs d = Ok d' -> forall x, has_key d' x <-> In x elements.
Proof.
  intros _. assert (Inner : forall c es d, (forall x, has_key d x <-> In x elements) -> forall d', foldM (fun d e =>
    bind (an e) (fun z => bind (count_element vdist Rleb sup rcut' z c) (fun k =>
    bind (lookup d e) (fun old => Ok (if old <? k then update d e k else d))))) es d = Ok d' -> forall x, has_key d' x <-> In x elements).
  { intros c es. induction es as [|e es IH]; intros d Hd d' E; [cbn in E; injection E as <-; exact Hd|].
    cbn [foldM] in E. destruct (an e) as [z|]; [|discriminate]. cbn [bind] in E. destruct (count_element vdist Rleb sup rcut' z c) as [k|]; [|discriminate]. cbn [bind] in E.
    destruct (lookup d e) as [o|] eqn:Eo; [|discriminate]. cbn [bind] in E. eapply IH; [|exact E]. intros x. destruct (o <? k); [|apply Hd]. rewrite has_update; [apply Hd|exists o; exact Eo]. }
  induction idxs as [|c idxs IH]; intros d Hd d' E; [cbn in E; injection E as <-; exact Hd|].
  cbn [foldM] in E. match type of E with bind ?X _ = _ => destruct X as [d1|] eqn:E1; [|discriminate] end. cbn [bind] in E. eapply IH; [|exact E]. exact (Inner c elements d Hd d1 E1).
Qed.
Lemma fromkeys_keys keys x : has_key (fromkeys keys) x <-> In x keys.
Proof.
  unfold has_key. rewrite lookup_fromkeys. destruct (existsb (String.eqb x) keys) eqn:E.
  - apply existsb_exists in E. destruct E as (y & Hy & Ey). apply String.eqb_eq in Ey. subst y. split; [intros _; exact Hy|intros _; exists 0; reflexivity].
  - split; [intros (v & X); discriminate|]. intros H. assert (X : existsb (String.eqb x) keys = true) by (apply existsb_exists; exists x; split; [exact H|apply String.eqb_refl]). congruence.
Qed.

Lemma frame_elements f : regular f -> exists d, frame_max_elements rcut s0 s1 s2 an elements f = Ok d /\
  (forall x, has_key d x <-> In x elements) /\
  forall e z, In e elements -> an e = Ok z -> frame_number (closer_element z rcut) s0 s1 s2 f (valof d e).
Proof.
  intros Hf. destruct (frame_ready srt f srt_ok Hf) as (sup & idxs & table & [Es Em] & Ek & _ & _ & _ & Hb).
  destruct (max_element_ok vdist Rleb vzero an sup idxs rcut elements Hb Han) as (d & Ed & Hd).
  exists d. split; [unfold frame_max_elements; rewrite Ek; cbn [bind]; rewrite Es; exact Ed|]. split.
  - exact (element_keys sup rcut idxs Hb _ (fromkeys_keys elements) d Ed).
  - intros e z He Ez. destruct (Hd e z He Ez) as (m & Elm & L). unfold valof. rewrite Elm. exists sup, idxs. split; [split; assumption|exact L].
Qed.

Lemma collection_elements cpus frames : (3 <= cpus)%Z -> frames <> [] -> Forall regular frames ->
  exists d, collection_max_elements rcut s0 s1 s2 cpus an elements frames = Ok d /\
    (forall e, (exists m, lookup d e = Ok m) <-> In e elements) /\
    forall e z, In e elements -> an e = Ok z -> exists m, lookup d e = Ok m /\ largest_of_frames (closer_element z rcut) s0 s1 s2 frames m.
Proof.
  intros Hc Hne Hf. rewrite Forall_forall in Hf.
  destruct (mapM_forall2 (frame_max_elements rcut s0 s1 s2 an elements) _ frames (fun f I => frame_elements f (Hf f I))) as (ds & E & F).
  unfold collection_max_elements, starmap. replace (cpus - 2 <? 1)%Z with false by lia. rewrite E. cbn [bind].
  assert (Kd : forall d, In d ds -> forall x, has_key d x <-> In x elements). { intros d Id. destruct (forall2_in_r _ _ _ _ F Id) as (f & _ & K & _). exact K. }
  unfold merge_max. destruct ds as [|d0 dr]; [inversion F; congruence|]. cbn [get nth_error bind].
  destruct (merge_outer (fun x => In x elements) (d0 :: dr) (fromkeys (map fst d0)) Kd) as (d & Ed & K & M).
  { intros x. rewrite fromkeys_keys, lookup_in. apply Kd. left. reflexivity. }
  exists d. split; [exact Ed|]. split; [exact K|]. intros e z He Ez. destruct (proj2 (K e) He) as (m & Em). exists m. split; [exact Em|].
  destruct (M e He) as [M1 M2]. assert (Vm : valof d e = m) by (unfold valof; rewrite Em; reflexivity). rewrite Vm in M1, M2.
  assert (Z0 : valof (fromkeys (map fst d0)) e = 0). { unfold valof. rewrite lookup_fromkeys. destruct (existsb _ _); reflexivity. }
  rewrite Z0 in M1, M2. split.
  - intros f If. destruct (forall2_in_l _ _ _ _ F If) as (df & Id & _ & N). exists (valof df e). split; [exact (N e z He Ez)|]. apply M1. right. apply in_map_iff. exists df. split; [reflexivity|exact Id].
  - destruct M2 as [Z1|I].
    + subst m. destruct (forall2_in_r _ _ _ d0 F (or_introl eq_refl)) as (f & If & _ & N). exists f. split; [exact If|]. replace 0 with (valof d0 e); [exact (N e z He Ez)|].
      specialize (M1 (valof d0 e)). cbn [map] in M1. specialize (M1 (or_intror (or_introl eq_refl))). lia.
    + apply in_map_iff in I. destruct I as (df & Ev & Id). destruct (forall2_in_r _ _ _ df F Id) as (f & If & _ & N). exists f. split; [exact If|]. rewrite <- Ev. exact (N e z He Ez).
Qed.

(** The counts are wide enough for the index lists of every frame without an atom on the cutoff. *)
Lemma collection_enough (rnd : R -> Z) argsort cpus frames d : (3 <= cpus)%Z -> Forall regular frames -> sorts Rleb argsort ->
  collection_max_elements rcut s0 s1 s2 cpus an elements frames = Ok d ->
  forall f e z m center, In f frames -> fr_sites f <> [] -> none_on_cutoff rcut s0 s1 s2 f -> In e elements -> an e = Ok z -> z <> 0%Z -> lookup d e = Ok m -> 0 < m ->
  exists table rows, structure_neighbors_v1 argsort (fr_a f) (fr_b f) (fr_c f) (fr_sites f) rcut s0 s1 s2 true = Ok table /\
    _get_nbrs_indices vzero (get_site_index rnd (fr_a f) (fr_b f) (fr_c f) (map snd (fr_sites f))) table center z (Some m) = Ok rows /\
    Forall (fun r => length r = m) rows /\
    exists vecs, expand_rc vzero 0%R vsub table center z m = Ok vecs.
Proof.
  intros Hc Hf Hso Ed f e z m center If Hne Hoff He Ez Hz Em Hm.
  assert (Nf : frames <> []) by (intros ->; destruct If).
  destruct (collection_elements cpus frames Hc Nf Hf) as (d' & Ed' & _ & Hd). assert (d' = d) by congruence. subst d'.
  destruct (Hd e z He Ez) as (m' & Em' & L1 & _). assert (m' = m) by congruence. subst m'.
  destruct (L1 f If) as (n & (sup' & idxs' & [Es' Em2'] & Ln) & Hn). rewrite Forall_forall in Hf.
  destruct (frame_ready argsort f Hso (Hf f If)) as (sup & idxs & table & [Es Em2] & Ek & En & Et & Iso & Hb).
  assert (sup' = sup) by congruence. subst sup'.
  assert (Hk : idxs <> []).
  { intros ->. cbn in Em2. apply Hne. assert (Pm := sort_perm _ fst (fr_sites f)). unfold reformat_elements_ in Em2. destruct (sort_by fst (fr_sites f)); [|discriminate]. apply Permutation_nil. symmetry. exact Pm. }
  assert (Sub : forall c, In c idxs -> In c idxs').
  { intros c Ic. rewrite <- Em2 in Em2'. assert (X : In (nth_error sup c) (map (nth_error sup) idxs)) by (apply in_map; exact Ic). rewrite <- Em2' in X. apply in_map_iff in X. destruct X as (c' & Ec & Ic').
    assert (Lc : c < length sup) by (rewrite Forall_forall in Hb; apply Hb; exact Ic). replace c with c'; [exact Ic'|].
    destruct (Hf f If) as [Hdet Hx]. destruct (supercell_nodup (fr_a f) (fr_b f) (fr_c f) Hdet s0 s1 s2 true (fr_sites f) sup O0 O1 O2 Hx Es) as (Nd & _ & _).
    assert (Lc' : c' < length sup). { apply nth_error_Some. rewrite Ec. apply nth_error_Some. exact Lc. }
    rewrite NoDup_nth_error in Nd. apply Nd; [rewrite map_length; exact Lc'|]. rewrite !nth_error_map, Ec. reflexivity. }
  assert (Bound : forall c sel, In c idxs -> pair_neighbours vdist Rleb sup rcut z c sel -> length sel <= m).
  { intros c sel Ic [Ls _]. destruct (proj1 Ln c (Sub c Ic)) as (k & Nk & Hkn).
    assert (Ns : number (of_element z (near vdist Rleb sup rcut) c) sup (length sel)) by (exists sel; split; [exact Ls|reflexivity]).
    assert (length sel <= k); [|lia]. eapply number_le; [|exact Ns|exact Nk]. intros j a Ha ((cen & Ec & G) & E1 & Nj). split; [|split; assumption]. exists cen. split; [exact Ec|].
    unfold strictly_within. apply Rleb_false. unfold within in G. apply Rleb_spec in G. assert (X := Hoff sup idxs c cen a (conj Es Em2) Ic Ec (nth_error_In _ _ Ha)). lra. }
  destruct (all_pairs vdist Rleb argsort vzero 0%R Rleb_total Hso sup idxs rcut (get_site_index rnd (fr_a f) (fr_b f) (fr_c f) (map snd (fr_sites f))) Iso Hk table Et [center] (z, m) []) as (rows0 & _ & _); [discriminate|constructor; [|constructor]; cbn; split; [exact Hz|]; split; [exact Hm|exact Bound]|].
  destruct (pair_all vdist Rleb argsort vzero 0%R Rleb_total Hso vsub sup idxs rcut center z Iso Hk Hz) as (t & sels & real & E & F & W & _ & G). assert (t = table) by congruence. subst t.
  assert (Hreal : real <= m).
  { destruct (proj2 W) as [->|(s & Is & <-)]; [lia|]. destruct (forall2_in_r _ _ _ s F Is) as (c & Ic & Hp). apply filter_In in Ic. exact (Bound c s (proj1 Ic) Hp). }
  destruct (G (get_site_index rnd (fr_a f) (fr_b f) (fr_c f) (map snd (fr_sites f))) m) as [G1 _]. destruct (G1 Hreal Hm) as (rows & Er & Fr).
  exists table, rows. split; [exact En|]. split; [exact Er|]. split.
  - apply Forall_forall. intros r Ir. destruct (forall2_in_r _ _ _ r Fr Ir) as (sel & Is & vals & Fv & ->). rewrite !app_length, !repeat_length.
    assert (Lv : length vals = length sel) by (clear - Fv; induction Fv; cbn; congruence). assert (X := proj1 W sel Is). lia.
  - destruct (expand_all vdist Rleb argsort vzero 0%R Rleb_total Hso vsub sup idxs rcut center z Iso Hk Hz m) as (t & sels2 & real2 & E2 & F2 & W2 & Ok1 & _). assert (t = table) by congruence. subst t.
    assert (Hreal2 : real2 <= m).
    { destruct (proj2 W2) as [->|(s & Is & <-)]; [lia|]. destruct (forall2_in_r _ _ _ s F2 Is) as (c & Ic & Hp). apply filter_In in Ic. exact (Bound c s (proj1 Ic) Hp). }
    destruct (Ok1 Hreal2) as (vecs & Ev & _). exists vecs. exact Ev.
Qed.
End Frames.

Lemma collection_refused rcut s0 s1 s2 an elements : 
  (forall cpus frames, (cpus <= 2)%Z -> collection_max_nbrs rcut s0 s1 s2 cpus frames = Err ValueError /\ collection_max_elements rcut s0 s1 s2 cpus an elements frames = Err ValueError) /\
  (forall cpus f frames e, (3 <= cpus)%Z -> positive_odd s0 -> positive_odd s1 -> positive_odd s2 -> (0 <= rcut)%R -> regular f -> fr_sites f <> [] -> In e elements -> an e = Err KeyError ->
    (forall x y, an x = Err y -> y = KeyError) -> collection_max_elements rcut s0 s1 s2 cpus an elements (f :: frames) = Err KeyError).
Proof.
  split.
  - intros cpus frames Hc. unfold collection_max_nbrs, collection_max_elements, starmap. replace (cpus - 2 <? 1)%Z with true by lia. split; reflexivity.
  - intros cpus f frames e Hc O0 O1 O2 Hr Hf Hne He Ee Hy. unfold collection_max_elements, starmap. replace (cpus - 2 <? 1)%Z with false by lia.
    destruct (frame_ready rcut s0 s1 s2 O0 O1 O2 Hr (insertion_argsort Rleb) f (insertion_sorts Rleb Rleb_total) Hf) as (sup & idxs & table & [Es Em] & Ek & _ & _ & _ & Hb).
    assert (X : frame_max_elements rcut s0 s1 s2 an elements f = Err KeyError).
    { unfold frame_max_elements. rewrite Ek. cbn [bind]. rewrite Es. cbn [bind]. destruct idxs as [|c idxs].
      - exfalso. cbn in Em. apply Hne. assert (Pm := sort_perm _ fst (fr_sites f)). unfold reformat_elements_ in Em. destruct (sort_by fst (fr_sites f)); [|discriminate]. apply Permutation_nil. symmetry. exact Pm.
      - inversion Hb; subst. apply (max_element_unknown vdist Rleb vzero an sup c idxs rcut elements e KeyError); assumption. }
    cbn [mapM]. rewrite X. reflexivity.
Qed.

(** *** Writers *)
Lemma filter_none {A} (p : A -> bool) l : (forall x, In x l -> p x = false) -> filter p l = [].
Proof. induction l as [|a l IH]; intros H; [reflexivity|]. cbn. rewrite (H a (or_introl eq_refl)). apply IH. intros x Hx. apply H. right. exact Hx. Qed.
Lemma without_emptied dir name : emptied dir (without dir name ++ [(name, Folder [])]) name.
Proof.
  exists (without dir name). split; [reflexivity|]. split.
  - intros I. apply in_map_iff in I. destruct I as ([k v] & E & I). cbn in E. subst k. apply filter_In in I. destruct I as [_ I]. cbn in I. rewrite String.eqb_refl in I. discriminate.
  - intros k N. unfold without. induction dir as [|[k' v] dir IH]; [reflexivity|]. cbn. destruct (String.eqb_spec k' name) as [->|N'].
    + cbn. destruct (String.eqb_spec name k); [congruence|exact IH].
    + cbn. destruct (String.eqb_spec k' k); [f_equal|]; exact IH.
Qed.

Lemma images_fail rest w l dir : 
  (forall t, find_entry dir (padw w 0) = Some (File t) -> save_images rest w (0 :: l) dir = (dir, Err PlainException)) /\
  ((forall t, find_entry dir (padw w 0) <> Some (File t)) -> save_images rest w (0 :: l) dir = (without dir (padw w 0) ++ [(padw w 0, Folder [])], Err TypeError)).
Proof.
  cbn [save_images]. set (name := padw w 0). split.
  - intros t Et. rewrite Et. reflexivity.
  - intros N. destruct (find_entry dir name) as [[t|f]|] eqn:X; [destruct (N t eq_refl)|reflexivity|reflexivity].
Qed.
Lemma save_fails {F} rest tables old structs tot pot kin vir (c : coll (F := F)) : make structs tot pot kin vir = Ok c ->
  let dir := existing old in
  let name := padw (String.length (dec (length structs))) 0 in
  (forall t, find_entry dir name = Some (File t) -> save_all_info rest tables old c = (dir, Err PlainException)) /\
  ((forall t, find_entry dir name <> Some (File t)) -> exists dir', save_all_info rest tables old c = (dir', Err TypeError) /\ emptied dir dir' name).
Proof.
  intros E. assert (Hs : co_structs c = structs) by (unfold make in E; destruct (get structs 0); [|discriminate]; cbn in E; injection E as <-; reflexivity).
  destruct structs as [|s r]; [discriminate|]. unfold save_all_info. rewrite Hs. change (seq 0 (length (s :: r))) with (0 :: seq 1 (length r)). cbn zeta.
  destruct (images_fail rest (String.length (dec (length (s :: r)))) (seq 1 (length r)) (existing old)) as [I1 I2]. split.
  - intros t Et. rewrite (I1 t Et). reflexivity.
  - intros N. rewrite (I2 N). eexists. split; [reflexivity|apply without_emptied].
Qed.

Lemma batch_spec {A} qr (read : string -> result (structure A)) write n frac dist rand randn systems : forall made made' res,
  batch_perturb qr read write n frac dist rand randn systems made = (made', res) ->
  (forall x, made' x = made x \/ made x = None /\ made' x = Some []) /\
  (res = Ok tt -> n = 0 \/ systems = []) /\
  (forall x r s l, systems = x :: r -> read x = Ok s -> perturb qr s n frac dist (rand x) (randn x) = Ok l -> 0 < n -> res = Err TypeError).
Proof.
  assert (Ln : forall s frac dist rd rn l, perturb qr (A := A) s n frac dist rd rn = Ok l -> length l = n).
  { intros s fr di rd rn l E. unfold perturb in E. assert (G : forall (h : nat -> result (structure A)) ks ys, mapM h ks = Ok ys -> length ys = length ks).
    { intros h. induction ks as [|k ks IH]; intros ys Ey; cbn in Ey; [injection Ey as <-; reflexivity|]. destruct (h k); [|discriminate]. cbn in Ey. destruct (mapM h ks) as [zs|]; [|discriminate]. cbn in Ey. injection Ey as <-. cbn. f_equal. apply IH. reflexivity. }
    apply G in E. rewrite seq_length in E. exact E. }
  induction systems as [|x systems IH]; intros made made' res E; cbn [batch_perturb] in E.
  - injection E as <- <-. split; [intros x; left; reflexivity|]. split; [intros _; right; reflexivity|intros x r s l; discriminate].
  - destruct (read x) as [s|e] eqn:Er; cbn [bind] in E.
    2: { injection E as <- <-. split; [intros y; left; reflexivity|]. split; [discriminate|]. intros y r s l Ey Ers. injection Ey as <- <-. congruence. }
    destruct (perturb qr s n frac dist (rand x) (randn x)) as [l|e] eqn:Ep.
    2: { injection E as <- <-. split; [intros y; left; reflexivity|]. split; [discriminate|]. intros y r s' l Ey Ers Epp. injection Ey as <- <-. assert (s' = s) by congruence. subst s'. congruence. }
    pose proof (Ln _ _ _ _ _ _ Ep) as Ll.
    assert (Hm : forall y, (if String.eqb y x then Some (existing (made x)) else made y) = made y \/
                 made y = None /\ (if String.eqb y x then Some (existing (made x)) else made y) = Some []).
    { intros y. destruct (String.eqb_spec y x) as [->|N]; [|left; reflexivity]. destruct (made x); [left; reflexivity|right; split; reflexivity]. }
    destruct l as [|p l].
    + cbn [write_all] in E. apply IH in E. destruct E as (H1 & H2 & H3). split.
      * intros y. destruct (H1 y) as [E1|[E1 E2]]; destruct (Hm y) as [E3|[E3 E4]].
        -- left. congruence.
        -- right. split; congruence.
        -- right. split; congruence.
        -- exfalso. rewrite E4 in E1. discriminate.
      * cbn in Ll. split; [intros _; left; symmetry; exact Ll|]. intros y r s' l' _ _ _ Hn. lia.
    + cbn [write_all] in E. change (call_keywords to_params ["output_file_path"%string; "output_file_format"%string]) with (@Err unit TypeError) in E. cbv iota in E. injection E as <- <-.
      split; [exact Hm|]. split; [discriminate|]. intros; reflexivity.
Qed.
Lemma collection_empty (rcut : R) s0 s1 s2 an elements cpus : (3 <= cpus)%Z ->
  collection_max_nbrs rcut s0 s1 s2 cpus [] = Err ValueError /\ collection_max_elements rcut s0 s1 s2 cpus an elements [] = Err IndexError.
Proof.
  intros C. unfold collection_max_nbrs, collection_max_elements, starmap. destruct (Z.ltb_spec (cpus - 2) 1); [lia|]. split; reflexivity.
Qed.

Lemma zeros_length k s : String.length (zeros k ++ s) = k + String.length s.
Proof. induction k as [|k IH]; [reflexivity|]. cbn. rewrite IH. reflexivity. Qed.
Lemma folder_names w a : String.length (padw w a) = Nat.max w (String.length (dec a)) /\ (forall b, padw w a = padw w b -> a = b).
Proof.
  unfold padw. rewrite zeros_length. split; [lia|]. intros b E. apply (f_equal DataText.parse) in E.
  rewrite !DataText.parse_zeros, !DataText.parse_dec in E by apply DataText.dec_nonempty. congruence.
Qed.

Lemma call_accepted : forall params kws,
  call_keywords params kws = Ok tt <->
  (forall k, In k kws -> exists b, In (k, b) params) /\ (forall n, In (n, true) params -> In n kws).
Proof.
  intros params kws. unfold call_keywords.
  match goal with |- (if ?b then _ else _) = _ <-> _ => destruct b eqn:E end.
  - split; [intros _|reflexivity]. apply andb_true_iff in E. destruct E as [E1 E2]. rewrite forallb_forall in E1, E2. split.
    + intros k Hk. apply E1 in Hk. apply existsb_exists in Hk. destruct Hk as ([n b] & Hin & He). cbn in He. apply String.eqb_eq in He. subst n. exists b. exact Hin.
    + intros n Hn. apply E2 in Hn. cbn in Hn. apply existsb_exists in Hn. destruct Hn as (k & Hin & He). apply String.eqb_eq in He. subst k. exact Hin.
  - split; [discriminate|]. intros [H1 H2]. exfalso. apply not_true_iff_false in E. apply E. apply andb_true_iff. split; apply forallb_forall.
    + intros k Hk. destruct (H1 k Hk) as (b & Hb). apply existsb_exists. exists (k, b). split; [exact Hb|apply String.eqb_refl].
    + intros [n b] Hn. cbn. destruct b; [|reflexivity]. cbn. apply existsb_exists. exists n. split; [apply H2; exact Hn|apply String.eqb_refl].
Qed.

Lemma to_accepted : forall kws,
  call_keywords to_params kws = Ok tt <->
  incl kws ["file_path"; "file_format"; "include_magnetic_moments"]%string /\ In "file_path"%string kws /\ In "file_format"%string kws.
Proof.
  intros kws. rewrite call_accepted. unfold to_params, incl. split.
  - intros [H1 H2]. split; [|split; apply H2; cbn; auto].
    intros k Hk. destruct (H1 k Hk) as (b & [E|[E|[E|[]]]]); injection E as <- <-; cbn; auto.
  - intros (H1 & H2 & H3). split.
    + intros k Hk. destruct (H1 k Hk) as [<-|[<-|[<-|[]]]]; eexists; cbn; eauto.
    + intros n [E|[E|[E|[]]]]; [injection E as <-; exact H2|injection E as <-; exact H3|discriminate E].
Qed.
