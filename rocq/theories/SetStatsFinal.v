(** Statistics of a set of structures: values, free columns, a set with one structure. *)
From Coq Require Import Permutation Lia ZifyBool Lra.
From Verif Require Import Arr Vec StructModel SiteIndexModel SeModel NeighModel StatsModel InferModel SetStatsModel NeighSpec SeSpec SiteIndexSpec StructSpec InferSpec StatsSpec SetStatsSpec.
From Verif Require Import StructProofs StructGlue NeighProofs NeighCounts NeighPair NeighGlue NeighReal SeProofs SiteIndexProofs StatsProofs InferProofs InferGlue InferRows InferFinal InferCases SetStatsProofs SetStatsRows.
From Verif Require Import NeighSpec InferSpec SetStatsSpec StatsSpec.
Local Open Scope nat_scope.

Lemma stats_all rows : calc_stats rows = ((mean (map rad rows) * (INR (length rows) / (INR (length rows) + 1 / 10 ^ 15)), 0, 0, 0)%R,
  (Some (Rmax (1 / 100) (deviation (map rad rows))), Some (Rmax (1 / 100) (deviation (flat_map ang rows))), Some (Rmax (1 / 100) (deviation (flat_map ang rows))), Some (Rmax (1 / 100) (deviation (flat_map ang rows))))).
Proof.
  destruct rows as [|r rows].
  - rewrite stats_empty. cbn [map flat_map length]. assert (M : mean [] = 0%R) by (unfold mean; cbn; unfold Rdiv; ring). unfold deviation. cbn [map]. rewrite M, sqrt_0, Rmax_left by lra. rewrite Rmult_0_l. reflexivity.
  - destruct (StatsProofs.stats_ok (r :: rows)) as (dr & da & -> & -> & ->); [discriminate|reflexivity].
Qed.

Section Final.
Variables (argsort : list R -> list nat) (rcut rs : R) (s0 s1 s2 : Z).
Hypothesis Hsort : sorts Rleb argsort.
Hypothesis O0 : positive_odd s0.
Hypothesis O1 : positive_odd s1.
Hypothesis O2 : positive_odd s2.
Hypothesis Hrc : (0 <= rcut)%R.
Hypothesis Hrs : (rs < rcut)%R.
Notation structure_rows zws := (structure_rows argsort rcut rs s0 s1 s2 (map fst zws) (map snd zws)).
Notation sample zws := (sample argsort rcut rs s0 s1 s2 (map fst zws) (map snd zws)).
Notation set_stats zws := (set_stats argsort rcut rs s0 s1 s2 (map fst zws) (map snd zws)).
Notation from_set zws ss is cs := (from_set argsort ss is rcut rs cs (map fst zws) (map snd zws) s0 s1 s2).

Lemma set_stats_ok zws ss is ts cs : ok_columns zws -> Forall2 (picked ss) is ts -> ts <> [] -> Forall regular ts -> cs <> [] ->
  (forall c, In c cs -> Forall (room rcut s0 s1 s2 zws c) ts /\ exists k, forall t, In t ts -> number_of t c = k) ->
  exists En n samples, (forall d, (0 < length_of d)%R -> environment rcut rs d (En d)) /\
  Forall2 (fun c rows => exists blocks, Forall2 (rows_of_structure rcut s0 s1 s2 zws c En) ts blocks /\ Permutation rows (flat_map as_rows blocks)) cs samples /\
  from_set zws ss is cs = Ok n /\ n_davgs n = map sample_averages samples /\ n_dstds n = map (fun rows => map Some (sample_deviations rows)) samples.
Proof.
  intros Hz Hp Hne Hreg Hcs H. exists (E rcut rs).
  destruct (mapM_forall2 (fun c => sample zws ss is c) (fun c rows => exists blocks, Forall2 (rows_of_structure rcut s0 s1 s2 zws c (E rcut rs)) ts blocks /\ Permutation rows (flat_map as_rows blocks)) cs) as (samples & Es & Fs).
  { intros c Ic. destruct (H c Ic) as (Hr & k & Hk). destruct (sample_ok argsort rcut rs s0 s1 s2 Hsort O0 O1 O2 Hrc zws Hz ss is ts c k Hp Hne Hreg Hr Hk) as (blocks & rows & Fb & Er & P). exists rows. split; [exact Er|]. exists blocks. split; assumption. }
  assert (Ess : set_stats zws ss is cs = Ok (map sample_averages samples, map (fun rows => map Some (sample_deviations rows)) samples)).
  { unfold SetStatsModel.set_stats. assert (M : mapM (fun c => bind (sample zws ss is c) (fun rows => Ok (calc_stats rows))) cs = Ok (map calc_stats samples)).
    { clear - Es. revert samples Es. induction cs as [|c l IH]; intros samples H; [injection H as <-; reflexivity|]. cbn [mapM] in *. destruct (sample zws ss is c) as [rows|e]; [|discriminate]. cbn [bind] in *. destruct (mapM _ l) as [q|e]; [|discriminate]. cbn [bind] in H. injection H as <-. rewrite (IH q eq_refl). reflexivity. }
    rewrite M. cbn [bind]. assert (Ns : samples <> []) by (intros ->; inversion Fs; subst; contradiction). destruct samples as [|r samples]; [contradiction|].
    change (map calc_stats (r :: samples)) with (calc_stats r :: map calc_stats samples). cbv beta iota. change (calc_stats r :: map calc_stats samples) with (map calc_stats (r :: samples)). rewrite !map_map. f_equal. f_equal; apply map_ext; intros rows; rewrite stats_all; reflexivity. }
  destruct (from_set_works argsort rcut rs s0 s1 s2 (map fst zws) (map snd zws) ss is cs _ Ess) as (n & En & Ea & Ed). exists n, samples. split; [intros d Hd; apply E_environment; assumption|]. split; [exact Fs|]. split; [exact En|]. split; [exact Ea|exact Ed].
Qed.

(** *** What is rejected *)
Lemma from_set_err zws ss is cs c : In c cs -> (forall c', In c' cs -> (exists rows, sample zws ss is c' = Ok rows) \/ sample zws ss is c' = Err ValueError) -> sample zws ss is c = Err ValueError -> from_set zws ss is cs = Err ValueError.
Proof.
  intros Ic Hall Hc. unfold SetStatsModel.from_set, SetStatsModel.set_stats. rewrite (mapM_first _ ValueError cs); [reflexivity| |].
  - intros c' Ic'. destruct (Hall c' Ic') as [(rows & ->)| ->]; [left; eexists; reflexivity|right; reflexivity].
  - exists c. split; [exact Ic|]. rewrite Hc. reflexivity.
Qed.
Lemma sample_value zws ss is ts c : ok_columns zws -> Forall2 (picked ss) is ts -> Forall regular ts -> (exists rows, sample zws ss is c = Ok rows) \/ sample zws ss is c = Err ValueError.
Proof.
  intros Hz Hp Hreg. unfold SetStatsModel.sample. rewrite (picks ss is ts Hp). cbn [bind]. rewrite Forall_forall in Hreg.
  assert (X : (exists bs, mapM (structure_rows zws c) ts = Ok bs) \/ mapM (structure_rows zws c) ts = Err ValueError).
  { clear Hp. induction ts as [|t l IH]; [left; exists []; reflexivity|]. cbn [mapM]. destruct (structure_value argsort rcut rs s0 s1 s2 Hsort O0 O1 O2 Hrc zws Hz t c (Hreg t (or_introl eq_refl))) as [(b & -> & _)| ->]; [|right; reflexivity]. cbn [bind].
    destruct IH as [(q & ->)| ->]; [intros x Ix; apply Hreg; right; exact Ix|left; eexists; reflexivity|right; reflexivity]. }
  destruct X as [(bs & ->)| ->]; [|right; reflexivity]. cbn [bind]. destruct (hcat_value bs) as [(b & ->)| ->]; [left; eexists; reflexivity|right; reflexivity].
Qed.
Lemma rejected zws ss is ts cs c : ok_columns zws -> Forall2 (picked ss) is ts -> Forall regular ts -> In c cs ->
  Exists (no_room rcut s0 s1 s2 zws c) ts \/ (exists t t', In t ts /\ In t' ts /\ number_of t c <> number_of t' c) \/ ts = [] -> from_set zws ss is cs = Err ValueError.
Proof.
  intros Hz Hp Hreg Ic H. apply (from_set_err zws ss is cs c Ic); [intros c' _; exact (sample_value zws ss is ts c' Hz Hp Hreg)|]. destruct H as [Ex|[(t & t' & It & It' & Hn)| ->]].
  - exact (sample_narrow argsort rcut rs s0 s1 s2 Hsort O0 O1 O2 Hrc zws Hz ss is ts c Hp Hreg Ex).
  - exact (sample_unequal argsort rcut rs s0 s1 s2 Hsort O0 O1 O2 Hrc zws Hz ss is ts c t t' Hp Hreg It It' Hn).
  - inversion Hp; subst. reflexivity.
Qed.

(** *** Free columns *)
Definition zero_of (l : list R) : R := nth 0 l 0%R.
Lemma rad_rows l : map rad (map four l) = map zero_of l.
Proof. rewrite map_map. apply map_ext. reflexivity. Qed.
Lemma total_repeat0 n : total (repeat 0%R n) = 0%R.
Proof. induction n as [|n IH]; [reflexivity|]. cbn [repeat total]. rewrite IH. ring. Qed.
Lemma total_filled sup pr zw : total (map zero_of (filled sup (raw rcut rs sup) zero4 pr zw)) = total (map (fun j => zero_of (raw rcut rs sup pr j)) (flt vzero sup (fst zw) (snd pr))).
Proof. unfold filled. rewrite map_app, map_map, map_repeat, total_app. change (zero_of zero4) with 0%R. rewrite total_repeat0. ring. Qed.
Lemma total_columns sup pr zws : total (map zero_of (concat (map (filled sup (raw rcut rs sup) zero4 pr) zws))) = total (map (fun z => total (map (fun j => zero_of (raw rcut rs sup pr j)) (flt vzero sup z (snd pr)))) (map fst zws)).
Proof. induction zws as [|zw zws IH]; [reflexivity|]. cbn [map concat total]. rewrite map_app, total_app, IH, total_filled. reflexivity. Qed.
Lemma structure_sums t c zws zws' b b' : regular t -> ok_columns zws -> ok_columns zws' -> map fst zws = map fst zws' -> structure_rows zws c t = Ok b -> structure_rows zws' c t = Ok b' ->
  total (map rad (as_rows b)) = total (map rad (as_rows b')) /\ length (as_rows b) = number_of t c * list_sum (map snd zws) /\ length (as_rows b') = number_of t c * list_sum (map snd zws').
Proof.
  intros Ht Hz Hz' Ef Eb Eb'. destruct (structure_closed argsort rcut rs s0 s1 s2 Hsort O0 O1 O2 Hrc t c Ht) as (sup & prs & Hc & Hm & Sel & H).
  assert (Cl : forall ws q, ok_columns ws -> structure_rows ws c t = Ok q -> q = map (fun pr => concat (map (filled sup (raw rcut rs sup) zero4 pr) ws)) prs /\ length (as_rows q) = number_of t c * list_sum (map snd ws)).
  { intros ws q Hw Eq. destruct (H ws Hw) as [Hok Hbad].
    assert (Fit : forall pr zw, In pr prs -> In zw ws -> length (flt vzero sup (fst zw) (snd pr)) <= snd zw). { intros pr zw Ip Iz. destruct (le_lt_dec (length (flt vzero sup (fst zw) (snd pr))) (snd zw)) as [L|L]; [exact L|]. rewrite Hbad in Eq; [discriminate|]. exists pr, zw. auto. }
    rewrite (Hok Fit) in Eq. assert (Q : q = map (fun pr => concat (map (filled sup (raw rcut rs sup) zero4 pr) ws)) prs) by congruence. split; [exact Q|]. subst q.
    apply (f_equal (@length _)) in Hm. rewrite !map_length in Hm. unfold number_of, as_rows. rewrite map_length, <- Hm. clear - Fit. induction prs as [|pr prs IH]; [reflexivity|]. cbn [map concat length]. rewrite app_length, IH by (intros p zw Ip; apply Fit; right; exact Ip).
    rewrite (concat_widths (filled sup (raw rcut rs sup) zero4 pr) ws); [reflexivity|]. intros zw Iz. unfold filled. rewrite app_length, map_length, repeat_length. specialize (Fit pr zw (or_introl eq_refl) Iz). lia. }
  destruct (Cl zws b Hz Eb) as [-> L], (Cl zws' b' Hz' Eb') as [-> L']. split; [|split; assumption]. unfold as_rows. rewrite !rad_rows. clear - Ef.
  induction prs as [|pr prs IH]; [reflexivity|]. cbn [map concat]. rewrite !map_app, !total_app, IH, !total_columns, Ef. reflexivity.
Qed.
Lemma total_perm l l' : Permutation l l' -> total l = total l'.
Proof. intros P. rewrite <- !sum_total. apply sumR_perm. exact P. Qed.
Lemma sample_sums zws zws' ss is ts c rows rows' : Forall2 (picked ss) is ts -> Forall regular ts -> ok_columns zws -> ok_columns zws' -> map fst zws = map fst zws' -> sample zws ss is c = Ok rows -> sample zws' ss is c = Ok rows' ->
  total (map rad rows) = total (map rad rows') /\ length rows = list_sum (map (fun t => number_of t c) ts) * list_sum (map snd zws) /\ length rows' = list_sum (map (fun t => number_of t c) ts) * list_sum (map snd zws').
Proof.
  intros Hp Hreg Hz Hz' Ef. unfold SetStatsModel.sample. rewrite (picks ss is ts Hp). cbn [bind].
  destruct (mapM (structure_rows zws c) ts) as [bs|e] eqn:Eb; [|discriminate]. destruct (mapM (structure_rows zws' c) ts) as [bs'|e] eqn:Eb'; [|discriminate]. cbn [bind].
  destruct (hcat bs) as [b|e] eqn:Hb; [|discriminate]. destruct (hcat bs') as [b'|e] eqn:Hb'; [|discriminate]. cbn [bind]. intros Q Q'. injection Q as <-. injection Q' as <-. change row_of with four.
  destruct (hcat_some bs b Hb) as (_ & _ & P), (hcat_some bs' b' Hb') as (_ & _ & P').
  rewrite !map_length, (Permutation_length P), (Permutation_length P'). rewrite (total_perm _ _ (Permutation_map rad (Permutation_map four P))), (total_perm _ _ (Permutation_map rad (Permutation_map four P'))).
  clear Hp Hb Hb' P P' b b'. revert bs bs' Eb Eb'. induction ts as [|t l IH]; intros bs bs' Eb Eb'; [injection Eb as <-; injection Eb' as <-; auto|]. inversion Hreg as [|? ? Rt Rl]; subst.
  cbn [mapM] in Eb, Eb'. destruct (structure_rows zws c t) as [q|e] eqn:E1; [|discriminate]. destruct (structure_rows zws' c t) as [q'|e] eqn:E2; [|discriminate]. cbn [bind] in Eb, Eb'.
  destruct (mapM (structure_rows zws c) l) as [r|e]; [|discriminate]. destruct (mapM (structure_rows zws' c) l) as [r'|e]; [|discriminate]. cbn [bind] in Eb, Eb'. injection Eb as <-. injection Eb' as <-.
  destruct (IH Rl r r' eq_refl eq_refl) as (I1 & I2 & I3). destruct (structure_sums t c zws zws' q q' Rt Hz Hz' Ef E1 E2) as (J1 & J2 & J3). unfold as_rows in *. rewrite map_length in J2, J3.
  cbn [map concat list_sum fold_right]. fold (list_sum (map (fun t => number_of t c) l)). rewrite !map_app, !total_app, !app_length, I1, I2, I3, J1, J2, J3, !Nat.mul_add_distr_r. auto.
Qed.
Lemma mapM_nth {X Y} (f : X -> result Y) l r i y : mapM f l = Ok r -> nth_error r i = Some y -> exists x, nth_error l i = Some x /\ f x = Ok y.
Proof.
  revert r i. induction l as [|x l IH]; intros r i H; [injection H as <-; destruct i; discriminate|]. cbn [mapM] in H. destruct (f x) as [a|e] eqn:Ea; [|discriminate]. cbn [bind] in H. destruct (mapM f l) as [q|e]; [|discriminate]. cbn [bind] in H. injection H as <-. destruct i as [|i]; cbn [nth_error]; intros Hi; [exists x; split; [reflexivity|congruence]|]. exact (IH q i eq_refl Hi).
Qed.
Lemma set_first zws ss is cs n i c : from_set zws ss is cs = Ok n -> nth_error cs i = Some c -> exists rows, sample zws ss is c = Ok rows /\ nth_error (n_davgs n) i = Some [(total (map rad rows) / (INR (length rows) + 1 / 10 ^ 15))%R; 0%R; 0%R; 0%R].
Proof.
  unfold SetStatsModel.from_set, SetStatsModel.set_stats. destruct (mapM _ cs) as [l|e] eqn:Em; [|discriminate]. cbn [bind]. intros H Hi.
  assert (Hd : n_davgs n = map (fun s : (R * R * R * R) * (option R * option R * option R * option R) => let '((a0, a1, a2, a3), _) := s in [a0; a1; a2; a3]) l).
  { destruct l as [|s l]; [discriminate|]. cbn [bind fst snd] in H. unfold new_normalizer in H. destruct (_ && _); [|discriminate]. injection H as <-. reflexivity. }
  assert (Li : i < length l) by (rewrite (mapM_length _ _ _ Em); apply nth_error_Some; congruence). destruct (nth_error l i) as [s|] eqn:Es; [|apply nth_error_None in Es; lia].
  destruct (mapM_nth _ _ _ _ _ Em Es) as (c' & Hc' & Ec). assert (c' = c) by congruence. subst c'. cbn beta in Ec. destruct (sample zws ss is c) as [rows|e]; [|discriminate]. exists rows. split; [reflexivity|]. cbn [bind] in Ec.
  rewrite Hd, nth_error_map, Es. cbn [option_map]. injection Ec as <-. unfold calc_stats. cbv zeta. rewrite map_length, sum_total. reflexivity.
Qed.
Lemma free_columns zws zws' ss is ts cs n n' i c : Forall2 (picked ss) is ts -> Forall regular ts -> ok_columns zws -> ok_columns zws' -> map fst zws = map fst zws' -> from_set zws ss is cs = Ok n -> from_set zws' ss is cs = Ok n' -> nth_error cs i = Some c ->
  let N := list_sum (map (fun t => number_of t c) ts) in exists a a', nth_error (n_davgs n) i = Some [a; 0; 0; 0]%R /\ nth_error (n_davgs n') i = Some [a'; 0; 0; 0]%R /\
  (a * (INR (N * list_sum (map snd zws)) + 1 / 10 ^ 15) = a' * (INR (N * list_sum (map snd zws')) + 1 / 10 ^ 15))%R.
Proof.
  intros Hp Hreg Hz Hz' Ef En En' Hi N. destruct (set_first zws ss is cs n i c En Hi) as (rows & Er & Ea), (set_first zws' ss is cs n' i c En' Hi) as (rows' & Er' & Ea').
  destruct (sample_sums zws zws' ss is ts c rows rows' Hp Hreg Hz Hz' Ef Er Er') as (T & L & L'). do 2 eexists. split; [exact Ea|]. split; [exact Ea'|]. fold N in L, L'. rewrite <- L, <- L', T. assert (P : forall k, (INR k + 1 / 10 ^ 15 <> 0)%R). { intros k. assert (0 <= INR k)%R by apply pos_INR. assert (0 < 1 / 10 ^ 15)%R by (apply Rdiv_lt_0_compat; [lra|apply pow_lt; lra]). lra. }
  assert (P1 := P (length rows)). assert (P2 := P (length rows')). set (x := (INR (length rows) + 1 / 10 ^ 15)%R) in *. set (y := (INR (length rows') + 1 / 10 ^ 15)%R) in *. field. split; assumption.
Qed.
End Final.

(** Indices and centres. *)
Lemma bad_index argsort ss is rcut rs c cs nbrs ms s0 s1 s2 : Exists (outside ss) is -> from_set argsort ss is rcut rs (c :: cs) nbrs ms s0 s1 s2 = Err IndexError.
Proof.
  intros Ex. unfold from_set, set_stats, sample. cbn [mapM]. replace (mapM (pick ss) is) with (@Err (list structure) IndexError); [reflexivity|]. symmetry. apply Exists_exists in Ex. destruct Ex as (i & Ii & Ho). apply mapM_first; [|exists i; split; [exact Ii|apply pick_outside; exact Ho]].
  intros j _. unfold pick, get. cbv zeta. set (k := if (j <? 0)%Z then _ else _). destruct (k <? 0)%Z; [right; reflexivity|]. destruct (nth_error ss (Z.to_nat k)) as [x|]; [left; exists x; reflexivity|right; reflexivity].
Qed.
Lemma no_centres argsort ss is rcut rs nbrs ms s0 s1 s2 : from_set argsort ss is rcut rs [] nbrs ms s0 s1 s2 = Err ValueError.
Proof. reflexivity. Qed.
