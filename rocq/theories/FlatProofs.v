(** The feature of a whole structure. *)
From Verif Require Import Arr Vec StructModel SiteIndexModel SeModel NeighModel StatsModel InferModel FlatModel NeighSpec SeSpec SiteIndexSpec StructSpec InferSpec.
From Verif Require Import StructProofs StructGlue NeighProofs NeighCounts NeighPair NeighGlue NeighReal SeProofs SiteIndexProofs InferProofs InferGlue InferRows InferFinal FlatSpec.
From Coq Require Import ZifyBool.
Open Scope nat_scope.

(** *** Lists *)
Lemma forall2_nth' {X Y} (Q : X -> Y -> Prop) a b i x : Forall2 Q a b -> nth_error a i = Some x -> exists y, nth_error b i = Some y /\ Q x y.
Proof. intros H. revert i. induction H as [|u v a b Huv H IH]; intros [|i] Hi; try discriminate; cbn in *; [exists v; split; [reflexivity|congruence]|exact (IH i Hi)]. Qed.
Lemma f2_length {X Y} (Q : X -> Y -> Prop) a b : Forall2 Q a b -> length a = length b.
Proof. induction 1; cbn; congruence. Qed.
Lemma f2_impl {X Y} (Q Q' : X -> Y -> Prop) a b : (forall x y, Q x y -> Q' x y) -> Forall2 Q a b -> Forall2 Q' a b.
Proof. intros H. induction 1; [exact (Forall2_nil _)|apply Forall2_cons; auto]. Qed.
Lemma f2_maps {I X Y} (Q : X -> Y -> Prop) (f : I -> X) (g : I -> Y) l : (forall i, In i l -> Q (f i) (g i)) -> Forall2 Q (map f l) (map g l).
Proof. induction l as [|i l IH]; intros H; [exact (Forall2_nil _)|]. cbn [map]. apply Forall2_cons; [apply H; left; reflexivity|apply IH; intros j Ij; apply H; right; exact Ij]. Qed.

Lemma nth_concat {X} (ls : list (list X)) i l k : nth_error ls i = Some l -> k < length l ->
  nth_error (concat ls) (list_sum (map (@length X) (firstn i ls)) + k) = nth_error l k.
Proof.
  revert i. induction ls as [|a ls IH]; intros [|i] Hi Hk; try discriminate; cbn [nth_error] in Hi.
  - cbn [firstn map list_sum fold_right concat]. rewrite Nat.add_0_l. replace l with a in * by congruence. apply nth_error_app1. exact Hk.
  - cbn [firstn map concat]. change (list_sum (length a :: ?r)) with (length a + list_sum r). rewrite nth_error_app2 by lia.
    replace (length a + list_sum (map (@length X) (firstn i ls)) + k - length a) with (list_sum (map (@length X) (firstn i ls)) + k) by lia. apply IH; assumption.
Qed.
Lemma sum_const (l : list nat) m : Forall (fun x => x = m) l -> list_sum l = length l * m.
Proof. induction 1 as [|x l Hx H IH]; [reflexivity|]. change (list_sum (x :: l)) with (x + list_sum l). rewrite IH, Hx. cbn. lia. Qed.
Lemma forall_firstn {X} (Q : X -> Prop) n l : Forall Q l -> Forall Q (firstn n l).
Proof. intros H. revert n. induction H as [|x l Hx H IH]; intros [|n]; cbn; constructor; auto. Qed.
Lemma nth_concat_eq {X} m (ls : list (list X)) i l k : Forall (fun r => length r = m) ls -> nth_error ls i = Some l -> k < m ->
  nth_error (concat ls) (i * m + k) = nth_error l k.
Proof.
  intros F Hi Hk. assert (Hl : length l = m) by (rewrite Forall_forall in F; apply F, (nth_error_In _ _ Hi)). rewrite <- (nth_concat ls i l k Hi) by lia. f_equal. f_equal.
  rewrite (sum_const _ m); [|apply Forall_map, forall_firstn, F]. rewrite map_length, firstn_length. assert (i < length ls) by (apply nth_error_Some; congruence). rewrite Nat.min_l by lia. reflexivity.
Qed.
Lemma concat_length_eq {X} m (ls : list (list X)) : Forall (fun r => length r = m) ls -> length (concat ls) = length ls * m.
Proof. induction 1 as [|r ls Hr H IH]; [reflexivity|]. cbn [concat]. rewrite app_length, IH, Hr. cbn. lia. Qed.
Lemma concat_length_sum {X} (ls : list (list X)) : length (concat ls) = list_sum (map (@length X) ls).
Proof. induction ls as [|l ls IH]; [reflexivity|]. cbn [concat map]. rewrite app_length, IH. reflexivity. Qed.
Lemma sum_scale (f : nat -> nat) k l : (forall x, f x = k * x) -> list_sum (map f l) = k * list_sum l.
Proof. intros H. induction l as [|x l IH]; [cbn; lia|]. cbn [map]. change (list_sum (?a :: ?r)) with (a + list_sum r). rewrite IH, H. lia. Qed.
Lemma mapM_err {X Y} (f : X -> result Y) l x e : In x l -> f x = Err e -> exists e', mapM f l = Err e'.
Proof.
  induction l as [|a l IH]; intros I H; [destruct I|]. cbn [mapM]. destruct I as [->|I]; [rewrite H; eexists; reflexivity|]. destruct (f a) as [y|e1]; [|eexists; reflexivity]. cbn [bind].
  destruct (IH I H) as (e' & ->). eexists. reflexivity.
Qed.
Lemma enum_nth {X} (l : list X) i x : nth_error l i = Some x -> In (i, x) (enumerate l).
Proof.
  intros H. apply (nth_error_In _ i). unfold enumerate. assert (G : forall (l : list X) k i, nth_error l i = Some x -> nth_error (combine (seq k (length l)) l) i = Some (k + i, x)).
  { clear. induction l as [|a l IH]; intros k [|i] H; try discriminate; cbn in *; [f_equal; f_equal; [lia|congruence]|rewrite (IH (Datatypes.S k) i H); f_equal; f_equal; lia]. }
  exact (G l 0 i H).
Qed.

Lemma combine_app2 {X Y} (a a' : list X) (b b' : list Y) : length a = length b -> combine (a ++ a') (b ++ b') = combine a b ++ combine a' b'.
Proof. revert b. induction a as [|x a IH]; intros [|y b] E; try discriminate; [reflexivity|]. cbn. rewrite IH by (cbn in E; lia). reflexivity. Qed.
Lemma combine_repeat2 {X Y} (x : X) (y : Y) n : combine (repeat x n) (repeat y n) = repeat (x, y) n.
Proof. induction n as [|n IH]; [reflexivity|]. cbn. rewrite IH. reflexivity. Qed.
Lemma map_repeat2 {X Y} (f : X -> Y) x n : map f (repeat x n) = repeat (f x) n.
Proof. induction n as [|n IH]; [reflexivity|]. cbn. rewrite IH. reflexivity. Qed.

(** *** A pair of elements *)
Section Pair.
Variables (argsort : list R -> list nat) (A B C : vec).
Hypothesis Hsort : sorts Rleb argsort.
Hypothesis Hdet : det A B C <> 0%R.
Variables (rcut rs : R) (s0 s1 s2 : Z) (sites : list (Z * vec)).
Hypothesis O0 : positive_odd s0.
Hypothesis O1 : positive_odd s1.
Hypothesis O2 : positive_odd s2.
Hypothesis Hsep : separated (lattice_image A B C) (map snd sites).
Hypothesis Hrc : (0 <= rcut)%R.
Hypothesis Hrs : (rs < rcut)%R.
Hypothesis Hsites : sites <> [].

Definition raw_env (d : vec) : list R := py_tilde_row rcut rs (vnorm d) d.

Lemma pair_sem : exists sup table cen, structure_neighbors_v1 argsort A B C sites rcut s0 s1 s2 true = Ok table /\ copies A B C s0 s1 s2 sites sup /\
  (forall z, map (nth_error sup) (cen z) = map Some (sites_of z sites)) /\
  forall z n, n <> 0%Z -> exists real rows, pair_tilde rcut rs table z n = Ok (real, rows) /\
  Forall2 (raw_row sup rcut vdist Rleb raw_env (n, real)) (cen z) rows /\
  (real = 0 \/ exists c, In c (cen z) /\ number (of_element n (near vdist Rleb sup rcut) c) sup real).
Proof.
  assert (Hd := separated_distinct A B C _ Hsep).
  destruct (neighbors_v1_ok A B C Hdet argsort sites rcut s0 s1 s2 Hsort O0 O1 O2 Hd Hrc) as (sup & idxs & table & Es & Ek & En & Et & Em & Iso). unfold site in *.
  destruct (table_rests vdist Rleb argsort vzero 0%R Rleb_total Hsort sup idxs rcut Iso) as (table' & rests & w & Et' & F & Wd & Lr & Ec & _). assert (Q : table' = table) by congruence. rewrite Q in *. clear Q Et' table'. change (combine idxs rests) with (pairs_of idxs rests) in Ec.
  destruct (supercell_nodup A B C Hdet s0 s1 s2 true sites sup O0 O1 O2 Hd Es) as (Nsup & Img & _).
  assert (Hb : Forall (fun c => c < length sup) idxs) by (revert Iso; apply Forall_impl; intros c; apply isolated_bound).
  assert (Hkey : idxs <> []).
  { intros ->. cbn [map] in Em. symmetry in Em. apply map_eq_nil in Em. apply Hsites. assert (X := sort_perm _ (@fst Z vec) sites). unfold reformat_elements_ in Em. rewrite Em in X. apply Permutation_nil. apply Permutation_sym. exact X. }
  assert (Hw : forall r, In r rests -> S (length r) <= w).
  { intros r Hr. apply In_nth_error in Hr. destruct Hr as (i & Hi). assert (i < length rests) by (apply nth_error_Some; congruence). destruct (nth_error idxs i) as [c|] eqn:K; [|apply nth_error_None in K; lia].
    apply (proj1 Wd (c :: r)). apply in_map_iff. exists (c, r). split; [reflexivity|]. apply (nth_error_In _ i). clear - K Hi. revert rests i K Hi. induction idxs as [|k ks IH]; intros [|r' rs'] [|i] K1 K2; cbn in *; try discriminate; [congruence|apply IH; assumption]. }
  exists sup, table, (fun z => centres_of sup z idxs). split; [exact En|]. split; [apply supercell_copies; assumption|]. split.
  { intros z. rewrite (centres_grouped sup _ idxs z Em). f_equal. apply (sort_filter _ fst). }
  assert (Nb : forall pr, In pr (combine idxs rests) -> neighbours vdist Rleb sup rcut (fst pr) (fst pr :: snd pr)).
  { intros pr Ip. apply (forall2_in_combine _ _ _ _ F Ip). }
  intros z n Hn. unfold pair_tilde. rewrite Ec, (extract_ok vdist vzero 0%R vsub sup w idxs rests Lr Hkey Hw z n Hn). cbn [bind].
  do 2 eexists. split; [reflexivity|]. split.
  - rewrite <- (chosen_centres vzero sup z idxs rests Lr Hb). unfold pair_rows. rewrite combine_maps, map_map. apply f2_maps. intros pr Ip. cbn [fst snd].
    assert (Ip' := Ip). apply filter_In in Ip. destruct Ip as [Ipr Kc].
    assert (Bc : fst pr < length sup). { rewrite Forall_forall in Hb. apply Hb. destruct pr as [a b]. apply in_combine_l in Ipr. exact Ipr. }
    assert (Ecen := nth_error_nth' sup (0%Z, vzero) Bc). set (ca := nth (fst pr) sup (0%Z, vzero)) in *.
    assert (Ps := flt_pair vdist Rleb vzero sup rcut n (fst pr) (snd pr) (Nb pr Ipr)).
    exists ca, (flt vzero sup n (snd pr)). split; [exact Ecen|]. split; [exact Ps|]. split; [exact (sel_real sup idxs rests z n pr Ip')|]. cbn [fst snd].
    rewrite combine_app2 by (rewrite !map_length; reflexivity). rewrite combine_maps, combine_repeat2, map_app, map_map, map_repeat2. cbn [fst snd]. rewrite tilde_zero. apply Forall2_app; [|apply forall2_repeat; reflexivity].
    rewrite <- (map_id (flt vzero sup n (snd pr))) at 2. rewrite map_map. apply f2_maps. intros j Ij. apply (proj2 (proj1 Ps)) in Ij. destruct Ij as (a & Ha & _). exists a. split; [exact Ha|]. rewrite (nth_error_nth _ _ _ Ha). reflexivity.
  - unfold real_of. destruct (list_max0_spec (map (fun pr => if is_centre vzero sup z (fst pr) then length (flt vzero sup n (snd pr)) else 0) (pairs_of idxs rests))) as [_ [M|M]]; [left; exact M|].
    apply in_map_iff in M. destruct M as (pr & M & Ip). destruct (is_centre vzero sup z (fst pr)) eqn:K; [|left; symmetry; exact M]. right. exists (fst pr). split.
    + rewrite <- (chosen_centres vzero sup z idxs rests Lr Hb). apply in_map. apply filter_In. split; assumption.
    + rewrite <- M. exists (flt vzero sup n (snd pr)). split; [exact (proj1 (flt_pair vdist Rleb vzero sup rcut n (fst pr) (snd pr) (Nb pr Ip)))|reflexivity].
Qed.
End Pair.
