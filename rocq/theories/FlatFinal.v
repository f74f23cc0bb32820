(** The feature of a whole structure: layout, dictionary and what is refused. *)
From Verif Require Import Arr Vec StructModel SiteIndexModel SeModel NeighModel StatsModel InferModel FlatModel NeighSpec SeSpec SiteIndexSpec StructSpec InferSpec.
From Verif Require Import NeighProofs NeighReal InferProofs InferRows InferFinal FlatProofs FlatSpec.
From Coq Require Import ZifyBool.
Open Scope nat_scope.

Lemma concat_concat2 {X} (ll : list (list (list X))) : concat (concat ll) = concat (map (@concat X) ll).
Proof. induction ll as [|l ll IH]; [reflexivity|]. cbn [concat map]. rewrite concat_app, IH. reflexivity. Qed.
Lemma nth_map_in {X Y} (f : X -> Y) l i x d : nth_error l i = Some x -> nth i (map f l) d = f x.
Proof. intros H. apply nth_error_nth. rewrite nth_error_map, H. reflexivity. Qed.

Lemma mapM_either {X Y} (f : X -> result Y) e l : (forall x, In x l -> (exists y, f x = Ok y) \/ f x = Err e) -> (exists ys, mapM f l = Ok ys) \/ mapM f l = Err e.
Proof.
  induction l as [|x l IH]; intros H; [left; eexists; reflexivity|]. cbn [mapM]. destruct (H x (or_introl eq_refl)) as [(y & ->)| ->]; [|right; reflexivity]. cbn [bind].
  destruct (IH (fun x' I => H x' (or_intror I))) as [(ys & ->)| ->]; [left; eexists; reflexivity|right; reflexivity].
Qed.

Section Rows.
Variables (atoms : list (Z * vec)) (rcut : R) (E : vec -> list R).
Hypothesis HE : forall d, length (E d) = 4.
Notation rr := (raw_row atoms rcut vdist Rleb E).

Lemma rr_shape zw c row : rr zw c row -> length row = snd zw /\ Forall (fun cell => length cell = 4) row.
Proof.
  intros (cen & sel & _ & _ & Le & F). split.
  - apply f2_length in F. rewrite app_length, map_length, repeat_length in F. lia.
  - clear Le. induction F as [|o cell os row Ho F IH]; constructor; [|exact IH]. destruct o as [j|]; cbn in Ho; [destruct Ho as (a & _ & ->); apply HE|rewrite Ho; reflexivity].
Qed.
Lemma rr_wider n real m c row : real <= m -> rr (n, real) c row -> rr (n, m) c (row ++ repeat zero4 (m - real)).
Proof.
  intros Le (cen & sel & Ec & Ps & Ls & F). cbn [fst snd] in *. exists cen, sel. split; [exact Ec|]. split; [exact Ps|]. split; [cbn; lia|]. cbn [snd].
  replace (m - length sel) with ((real - length sel) + (m - real)) by lia. rewrite repeat_app, app_assoc. apply Forall2_app; [exact F|apply forall2_repeat; reflexivity].
Qed.
Lemma widen_rows n real m l rows : real <= m -> Forall2 (rr (n, real)) l rows -> exists rows', widen zero4 real m rows = Ok rows' /\ Forall2 (rr (n, m)) l rows'.
Proof.
  intros Le F. unfold widen. replace (real <=? m) with true by lia. eexists. split; [reflexivity|]. induction F as [|c row l rows H F IH]; [exact (Forall2_nil _)|]. cbn [map]. apply Forall2_cons; [apply rr_wider; assumption|exact IH].
Qed.
Lemma crowded_real n real m l rows : Forall2 (rr (n, real)) l rows -> crowded atoms rcut vdist Rleb (n, m) l -> m < real.
Proof.
  intros F (c & k & Ic & Hk & Lt). cbn [fst snd] in *. apply In_nth_error in Ic. destruct Ic as (i & Hi). destruct (forall2_nth' _ _ _ _ _ F Hi) as (row & _ & cen & sel & _ & Ps & Ls & _). cbn [fst snd] in *.
  assert (length sel = k) by (apply (number_unique _ atoms _ _ (ex_intro _ _ (conj (proj1 Ps) eq_refl)) Hk)). lia.
Qed.
End Rows.

Lemma env_length rcut rs d : length (raw_env rcut rs d) = 4.
Proof. reflexivity. Qed.

Section Final.
Variables (argsort : list R -> list nat) (A B C : vec).
Hypothesis Hsort : sorts Rleb argsort.
Hypothesis Hdet : det A B C <> 0%R.
Variables (rcut rs : R) (s0 s1 s2 : Z) (sites : list (Z * vec)).
Hypothesis O0 : positive_odd s0.
Hypothesis O1 : positive_odd s1.
Hypothesis O2 : positive_odd s2.
Hypothesis Hsep : separated (lattice_image A B C) (map snd sites).
Hypothesis Hrc : (0 <= rcut)%R.
Hypothesis Hrs : (rs < rcut)%R.
Hypothesis Hsites : sites <> [].

Lemma flat_all (cs : list Z) (zws : list (Z * nat)) (extra : list Z) : cs <> [] -> zws <> [] -> (forall zw, In zw zws -> fst zw <> 0%Z) ->
  let run := flat_of argsort A B C rcut rs s0 s1 s2 sites cs (map fst zws) (map (fun zw => Z.of_nat (snd zw)) zws ++ extra) in
  let counts := map (fun z => length (sites_of z sites)) cs in
  exists E atoms cen, (forall d, (0 < length_of d)%R -> environment rcut rs d (E d)) /\ copies A B C s0 s1 s2 sites atoms /\
  (forall z, map (nth_error atoms) (cen z) = map Some (sites_of z sites)) /\
  ((forall z zw, In z cs -> In zw zws -> ~ crowded atoms rcut vdist Rleb zw (cen z)) ->
    exists flat, run = Ok flat /\ length flat = 4 * (list_sum counts * list_sum (map snd zws)) /\
    forall ci z ni zw i c, nth_error cs ci = Some z -> nth_error zws ni = Some zw -> nth_error (cen z) i = Some c ->
    exists row, raw_row atoms rcut vdist Rleb E zw c row /\
    forall k a cell, nth_error row k = Some cell -> a < 4 -> nth_error flat (place counts (map snd zws) ci ni i k a) = nth_error cell a) /\
  ((exists z zw, In z cs /\ In zw zws /\ crowded atoms rcut vdist Rleb zw (cen z)) -> (forall zw, In zw zws -> 0 < snd zw) -> run = Err ValueError).
Proof.
  intros Hcs Hzws Hz. cbv zeta. destruct (pair_sem argsort A B C Hsort Hdet rcut rs s0 s1 s2 sites O0 O1 O2 Hsep Hrc Hsites) as (sup & table & cen & En & Cp & Cen & Sem).
  exists (raw_env rcut rs), sup, cen. split; [intros d Hp; apply py_environment; assumption|]. split; [exact Cp|]. split; [exact Cen|].
  unfold flat_of. rewrite En. cbn [bind]. unfold flat_feature.
  set (blk := fun z (zw : Z * nat) => match bind (pair_tilde rcut rs table z (fst zw)) (fun f => padded zero4 (fst f) (Z.of_nat (snd zw)) (snd f)) with Ok rows => rows | Err _ => [] end).
  assert (Enum : forall z, mapM (flat_block rcut rs table (map (fun zw => Z.of_nat (snd zw)) zws ++ extra) z) (enumerate (map fst zws)) =
    mapM (fun zw => bind (pair_tilde rcut rs table z (fst zw)) (fun f => bind (padded zero4 (fst f) (Z.of_nat (snd zw)) (snd f)) (fun rows => Ok (concat (concat rows))))) zws).
  { intros z. apply mapM_enum_same. intros i zw Hi. unfold flat_block. cbn [fst snd].
    assert (G : get (map (fun zw : Z * nat => Z.of_nat (snd zw)) zws ++ extra) i = Ok (Z.of_nat (snd zw))).
    { unfold get. rewrite nth_error_app1 by (rewrite map_length; apply nth_error_Some; congruence). rewrite nth_error_map, Hi. reflexivity. }
    rewrite G. reflexivity. }
  assert (Lc : forall z, length (cen z) = length (sites_of z sites)) by (intros z; assert (X := f_equal (@length _) (Cen z)); rewrite !map_length in X; exact X).
  assert (Pad : forall {F} (zero : F) real m rows, padded zero real (Z.of_nat m) rows = widen zero real m rows) by (intros; unfold padded; replace (Z.of_nat m <? 0)%Z with false by lia; rewrite Nat2Z.id; reflexivity).
  split.
  - intros Fit.
    assert (Blk : forall z zw, In z cs -> In zw zws -> bind (pair_tilde rcut rs table z (fst zw)) (fun f => padded zero4 (fst f) (Z.of_nat (snd zw)) (snd f)) = Ok (blk z zw) /\ Forall2 (raw_row sup rcut vdist Rleb (raw_env rcut rs) zw) (cen z) (blk z zw)).
    { intros z zw Iz Izw. unfold blk. destruct (Sem z (fst zw) (Hz zw Izw)) as (real & rows & Ep & F & Mx). rewrite Ep. cbn [bind fst snd]. rewrite Pad.
      assert (Le : real <= snd zw). { destruct (le_lt_dec real (snd zw)) as [L|G]; [exact L|]. destruct (Fit z zw Iz Izw). destruct Mx as [M|(c & Ic & Nc)]; [lia|]. exists c, real. auto. }
      destruct (widen_rows sup rcut (raw_env rcut rs) (fst zw) real (snd zw) (cen z) rows Le F) as (rows' & -> & F'). split; [reflexivity|]. rewrite <- surjective_pairing in F'. exact F'. }
    rewrite (mapM_all _ (fun z => map (fun zw => concat (concat (blk z zw))) zws)).
    2: { intros z Iz. rewrite Enum. apply mapM_all. intros zw Izw. destruct (Blk z zw Iz Izw) as [X _]. destruct (pair_tilde rcut rs table z (fst zw)) as [f|e]; [|discriminate]. cbn [bind] in *. rewrite X. reflexivity. }
    cbn [bind]. set (parts := map (fun z => map (fun zw => concat (concat (blk z zw))) zws) cs).
    assert (Ne : exists p l, concat parts = p :: l). { unfold parts. destruct cs as [|z cs']; [contradiction|]. destruct zws as [|zw zws']; [contradiction|]. cbn [map concat app]. eexists _, _. reflexivity. }
    exists (concat (concat parts)). split; [destruct Ne as (p & l & ->); reflexivity|].
    assert (BL : forall z zw, In z cs -> In zw zws -> Forall (fun r => length r = snd zw * 4) (map (@concat R) (blk z zw)) /\ length (blk z zw) = length (sites_of z sites)).
    { intros z zw Iz Izw. destruct (Blk z zw Iz Izw) as [_ F]. split; [|rewrite <- Lc; symmetry; exact (f2_length _ _ _ F)]. apply Forall_map, Forall_forall. intros row Ir. apply In_nth_error in Ir. destruct Ir as (i & Hi).
      assert (i < length (cen z)) by (rewrite (f2_length _ _ _ F); apply nth_error_Some; congruence). destruct (nth_error (cen z) i) as [c|] eqn:Ec; [|apply nth_error_None in Ec; lia].
      destruct (forall2_nth' _ _ _ _ _ F Ec) as (row' & Hi' & Rr). assert (row' = row) by congruence. subst row'. destruct (rr_shape sup rcut (raw_env rcut rs) (env_length rcut rs) zw c row Rr) as [Lw F4]. rewrite (concat_length_eq 4 _ F4), Lw. reflexivity. }
    assert (BLL : forall z zw, In z cs -> In zw zws -> length (concat (concat (blk z zw))) = length (sites_of z sites) * 4 * snd zw).
    { intros z zw Iz Izw. destruct (BL z zw Iz Izw) as [F L]. rewrite concat_concat2, (concat_length_eq _ _ F), map_length, L. lia. }
    assert (PL : forall z, In z cs -> length (concat (map (fun zw => concat (concat (blk z zw))) zws)) = list_sum (map snd zws) * 4 * length (sites_of z sites)).
    { intros z Iz. rewrite concat_length_sum, map_map. rewrite (map_ext_in _ (fun zw : Z * nat => length (sites_of z sites) * 4 * snd zw)) by (intros zw Izw; apply BLL; assumption).
      rewrite <- (map_map snd (fun x => length (sites_of z sites) * 4 * x)), (sum_scale _ (length (sites_of z sites) * 4)) by reflexivity. lia. }
    rewrite concat_concat2. unfold parts. rewrite map_map. split.
    + rewrite concat_length_sum, map_map, (map_ext_in _ (fun z => list_sum (map snd zws) * 4 * length (sites_of z sites))) by exact PL.
      rewrite <- (map_map (fun z => length (sites_of z sites)) (fun x => list_sum (map snd zws) * 4 * x)), (sum_scale _ (list_sum (map snd zws) * 4)) by reflexivity. lia.
    + intros ci z ni zw i c Hci Hni Hi. assert (Iz := nth_error_In _ _ Hci). assert (Izw := nth_error_In _ _ Hni). destruct (Blk z zw Iz Izw) as [_ F]. destruct (forall2_nth' _ _ _ _ _ F Hi) as (row & Hrow & Rr). exists row. split; [exact Rr|].
      intros k a cell Hk Ha. destruct (rr_shape sup rcut (raw_env rcut rs) (env_length rcut rs) zw c row Rr) as [Lw F4]. assert (Kw : k < snd zw) by (rewrite <- Lw; apply nth_error_Some; congruence).
      destruct (BL z zw Iz Izw) as [FB LB]. assert (Ii : i < length (sites_of z sites)) by (rewrite <- Lc; apply nth_error_Some; congruence).
      assert (Hrow' : nth_error (map (@concat R) (blk z zw)) i = Some (concat row)) by (rewrite nth_error_map, Hrow; reflexivity).
      rewrite <- (nth_concat_eq 4 row k cell a F4 Hk Ha).
      assert (P1 : k * 4 + a < snd zw * 4) by (clear - Kw Ha; nia).
      rewrite <- (nth_concat_eq (snd zw * 4) _ i (concat row) (k * 4 + a) FB Hrow' P1), <- concat_concat2.
      assert (P2 : i * (snd zw * 4) + (k * 4 + a) < length (concat (concat (blk z zw)))) by (rewrite (BLL z zw Iz Izw); clear - P1 Ii; nia).
      assert (Hb : nth_error (map (fun zw => concat (concat (blk z zw))) zws) ni = Some (concat (concat (blk z zw)))) by (rewrite nth_error_map, Hni; reflexivity).
      rewrite <- (nth_concat _ ni _ _ Hb P2). set (o1 := list_sum (map (@length R) (firstn ni (map (fun zw => concat (concat (blk z zw))) zws)))).
      assert (Eo1 : o1 = length (sites_of z sites) * 4 * list_sum (firstn ni (map snd zws))).
      { unfold o1. rewrite !firstn_map, map_map. rewrite (map_ext_in _ (fun zw : Z * nat => length (sites_of z sites) * 4 * snd zw)) by (intros zw' I'; apply BLL; [exact Iz|rewrite <- (firstn_skipn ni zws); apply in_or_app; left; exact I']).
        rewrite <- (map_map snd (fun x => length (sites_of z sites) * 4 * x)). apply sum_scale. reflexivity. }
      assert (P3 : o1 + (i * (snd zw * 4) + (k * 4 + a)) < length (concat (map (fun zw => concat (concat (blk z zw))) zws))).
      { assert (X : nth_error (concat (map (fun zw => concat (concat (blk z zw))) zws)) (o1 + (i * (snd zw * 4) + (k * 4 + a))) <> None) by (unfold o1; rewrite (nth_concat _ ni _ _ Hb P2); apply nth_error_Some; exact P2). apply nth_error_Some. exact X. }
      assert (Hc : nth_error (map (fun z => concat (map (fun zw => concat (concat (blk z zw))) zws)) cs) ci = Some (concat (map (fun zw => concat (concat (blk z zw))) zws))) by (rewrite nth_error_map, Hci; reflexivity).
      assert (Eo2 : list_sum (map (@length R) (firstn ci (map (fun z => concat (map (fun zw => concat (concat (blk z zw))) zws)) cs))) = list_sum (map snd zws) * 4 * list_sum (map (fun z => length (sites_of z sites)) (firstn ci cs))).
      { rewrite firstn_map, map_map. rewrite (map_ext_in _ (fun z => list_sum (map snd zws) * 4 * length (sites_of z sites))) by (intros z' I'; apply PL; rewrite <- (firstn_skipn ci cs); apply in_or_app; left; exact I').
        rewrite <- (map_map (fun z => length (sites_of z sites)) (fun x => list_sum (map snd zws) * 4 * x)). apply sum_scale. reflexivity. }
      rewrite <- (nth_concat _ ci _ _ Hc P3). f_equal. rewrite Eo1, Eo2.
      unfold place. rewrite (nth_map_in _ _ _ _ 0 Hci), (nth_map_in _ _ _ _ 0 Hni), (firstn_map (fun z => length (sites_of z sites))). clear. set (x := list_sum (map (fun z0 => length (sites_of z0 sites)) (firstn ci cs))). set (y := list_sum (map snd zws)). set (t := list_sum (firstn ni (map snd zws))). nia.
  - intros (z & zw & Iz & Izw & Cr) Hp.
    assert (Two : forall z zw, In zw zws -> (exists y, bind (pair_tilde rcut rs table z (fst zw)) (fun f => bind (padded zero4 (fst f) (Z.of_nat (snd zw)) (snd f)) (fun rows => Ok (concat (concat rows)))) = Ok y) \/
      bind (pair_tilde rcut rs table z (fst zw)) (fun f => bind (padded zero4 (fst f) (Z.of_nat (snd zw)) (snd f)) (fun rows => Ok (concat (concat rows)))) = Err ValueError).
    { intros z' zw' I'. destruct (Sem z' (fst zw') (Hz zw' I')) as (real & rows & Ep & _ & _). rewrite Ep. cbn [bind fst snd]. rewrite Pad. unfold widen. destruct (real <=? snd zw'); [left; eexists; reflexivity|]. destruct ((real =? 1) && (snd zw' =? 0)); [left; eexists; reflexivity|right; reflexivity]. }
    rewrite (mapM_first _ ValueError cs); [reflexivity| |].
    + intros z' _. rewrite Enum. apply mapM_either. intros zw' I'. apply Two. exact I'.
    + exists z. split; [exact Iz|]. rewrite Enum. apply mapM_first; [intros zw' I'; apply Two; exact I'|]. exists zw. split; [exact Izw|].
      destruct (Sem z (fst zw) (Hz zw Izw)) as (real & rows & Ep & F & _). rewrite Ep. cbn [bind fst snd]. rewrite Pad. rewrite (surjective_pairing zw) in Cr. assert (Lt := crowded_real sup rcut (raw_env rcut rs) (fst zw) real (snd zw) (cen z) rows F Cr). specialize (Hp zw Izw).
      unfold widen. replace (real <=? snd zw) with false by lia. replace (snd zw =? 0) with false by lia. rewrite Bool.andb_false_r. reflexivity.
Qed.

(** *** The dictionary *)

Lemma mapM_errs {X Y} (Q : exn -> Prop) (f : X -> result Y) l : (forall x, In x l -> (exists y, f x = Ok y) \/ exists e, Q e /\ f x = Err e) ->
  (exists ys, mapM f l = Ok ys) \/ exists e, Q e /\ mapM f l = Err e.
Proof.
  induction l as [|x l IH]; intros H; [left; eexists; reflexivity|]. cbn [mapM]. destruct (H x (or_introl eq_refl)) as [(y & ->)|(e & Qe & ->)]; [|right; exists e; auto]. cbn [bind].
  destruct (IH (fun x' I => H x' (or_intror I))) as [(ys & ->)|(e & Qe & ->)]; [left; eexists; reflexivity|right; exists e; auto].
Qed.

Lemma dict_all (order : list Z -> list Z) (maxs : list (Z * Z)) (wd : Z -> nat) : lists_set order -> (forall s, In s sites -> fst s <> 0%Z) ->
  (forall s, In s sites -> max_of maxs (fst s) = Ok (Z.of_nat (wd (fst s)))) ->
  let run := calc_tildeR argsort order A B C rcut rs s0 s1 s2 maxs sites in
  let elements := order (map fst sites) in
  exists E atoms cen, (forall d, (0 < length_of d)%R -> environment rcut rs d (E d)) /\ copies A B C s0 s1 s2 sites atoms /\
  (forall z, map (nth_error atoms) (cen z) = map Some (sites_of z sites)) /\
  ((forall z n, In z elements -> In n elements -> ~ crowded atoms rcut vdist Rleb (n, wd n) (cen z)) ->
    exists d, run = Ok d /\ map fst d = list_prod elements elements /\
    (forall z n rows, In ((z, n), rows) d -> Forall2 (raw_row atoms rcut vdist Rleb E (n, wd n)) (cen z) rows) /\
    forall order', lists_set order' -> exists d', calc_tildeR argsort order' A B C rcut rs s0 s1 s2 maxs sites = Ok d' /\ forall e, In e d' <-> In e d) /\
  ((exists z n, In z elements /\ In n elements /\ crowded atoms rcut vdist Rleb (n, wd n) (cen z)) -> (forall z, In z elements -> 0 < wd z) -> run = Err ValueError).
Proof.
  intros Ho Hz Hmax. cbv zeta. destruct (pair_sem argsort A B C Hsort Hdet rcut rs s0 s1 s2 sites O0 O1 O2 Hsep Hrc Hsites) as (sup & table & cen & En & Cp & Cen & Sem).
  exists (raw_env rcut rs), sup, cen. split; [intros d Hp; apply py_environment; assumption|]. split; [exact Cp|]. split; [exact Cen|].
  unfold calc_tildeR. rewrite En. cbn [bind].
  assert (Pad : forall {F} (zero : F) real m rows, padded zero real (Z.of_nat m) rows = widen zero real m rows) by (intros; unfold padded; replace (Z.of_nat m <? 0)%Z with false by lia; rewrite Nat2Z.id; reflexivity).
  assert (El : forall o z, lists_set o -> In z (o (map fst sites)) -> z <> 0%Z /\ max_of maxs z = Ok (Z.of_nat (wd z))).
  { intros o z Oo I. apply (proj1 (proj2 (Oo (map fst sites)) z)) in I. apply in_map_iff in I. destruct I as (s & <- & Is). split; [apply Hz; exact Is|apply Hmax; exact Is]. }
  split.
  - intros Fit.
    set (blk := fun z n => match pair_value rcut rs table maxs z n with Ok v => snd v | Err _ => [] end).
    assert (Val : forall z n, In z (order (map fst sites)) -> In n (order (map fst sites)) -> pair_value rcut rs table maxs z n = Ok ((z, n), blk z n) /\ Forall2 (raw_row sup rcut vdist Rleb (raw_env rcut rs) (n, wd n)) (cen z) (blk z n)).
    { intros z n I1 I2. unfold blk, pair_value. destruct (El order n Ho I2) as [N0 Mx]. destruct (Sem z n N0) as (real & rows & Ep & F & Top). rewrite Ep. cbn [bind fst snd]. rewrite Mx. cbn [bind]. rewrite Pad.
      assert (Le : real <= wd n). { destruct (le_lt_dec real (wd n)) as [L|G]; [exact L|]. destruct (Fit z n I1 I2). destruct Top as [M|(c & Ic & Nc)]; [lia|]. exists c, real. auto. }
      destruct (widen_rows sup rcut (raw_env rcut rs) n real (wd n) (cen z) rows Le F) as (rows' & -> & F'). cbn [bind snd]. split; [reflexivity|exact F']. }
    assert (All : forall o, lists_set o -> pair_values rcut rs table maxs (o (map fst sites)) = Ok (concat (map (fun z => map (fun n => ((z, n), blk z n)) (o (map fst sites))) (o (map fst sites))))).
    { intros o Oo. unfold pair_values. rewrite (mapM_all _ (fun z => map (fun n => ((z, n), blk z n)) (o (map fst sites)))); [reflexivity|]. intros z I1. apply mapM_all. intros n I2.
      apply Val; apply (proj2 (proj2 (Ho (map fst sites)) _)); apply (proj1 (proj2 (Oo (map fst sites)) _)); assumption. }
    assert (Mem : forall o z n rows, In ((z, n), rows) (concat (map (fun z => map (fun n => ((z, n), blk z n)) (o (map fst sites))) (o (map fst sites)))) <-> In z (o (map fst sites)) /\ In n (o (map fst sites)) /\ rows = blk z n).
    { intros o z n rows. rewrite in_concat. split.
      - intros (l & Il & I). apply in_map_iff in Il. destruct Il as (z' & <- & Iz). apply in_map_iff in I. destruct I as (n' & Q & In'). injection Q as Q1 Q2 Q3. subst. auto.
      - intros (I1 & I2 & ->). eexists. split; [apply in_map_iff; exists z; split; [reflexivity|exact I1]|]. apply in_map_iff. exists n. split; [reflexivity|exact I2]. }
    exists (concat (map (fun z => map (fun n => ((z, n), blk z n)) (order (map fst sites))) (order (map fst sites)))). split; [exact (All order Ho)|]. split; [|split].
    + assert (G : forall a b : list Z, map fst (concat (map (fun z => map (fun n => ((z, n), blk z n)) b) a)) = list_prod a b); [|apply G].
      intros a b. induction a as [|z a IH]; [reflexivity|]. cbn [map concat list_prod]. rewrite map_app, IH, map_map. reflexivity.
    + intros z n rows I. apply (Mem order) in I. destruct I as (I1 & I2 & ->). apply Val; assumption.
    + intros order' Ho'. eexists. split; [exact (All order' Ho')|]. intros [[z n] rows]. rewrite !Mem. rewrite (proj2 (Ho' (map fst sites)) z), (proj2 (Ho' (map fst sites)) n), (proj2 (Ho (map fst sites)) z), (proj2 (Ho (map fst sites)) n). reflexivity.
  - intros (z & n & I1 & I2 & Cr) Hp. unfold pair_values.
    assert (Two : forall z' n', In n' (order (map fst sites)) -> (exists y, pair_value rcut rs table maxs z' n' = Ok y) \/ pair_value rcut rs table maxs z' n' = Err ValueError).
    { intros z' n' I'. destruct (El order n' Ho I') as [N0 Mx]. unfold pair_value. destruct (Sem z' n' N0) as (real & rows & -> & _ & _). cbn [bind fst snd]. rewrite Mx. cbn [bind]. rewrite Pad. unfold widen.
      destruct (real <=? wd n'); [left; eexists; reflexivity|]. destruct ((real =? 1) && (wd n' =? 0)); [left; eexists; reflexivity|right; reflexivity]. }
    rewrite (mapM_first _ ValueError (order (map fst sites))); [reflexivity| |].
    + intros z' _. apply mapM_either. intros n' I'. apply Two. exact I'.
    + exists z. split; [exact I1|]. apply mapM_first; [intros n' I'; apply Two; exact I'|]. exists n. split; [exact I2|]. destruct (El order n Ho I2) as [N0 Mx]. unfold pair_value. destruct (Sem z n N0) as (real & rows & Ep & F & _). rewrite Ep. cbn [bind fst snd]. rewrite Mx. cbn [bind]. rewrite Pad.
      assert (Lt := crowded_real sup rcut (raw_env rcut rs) n real (wd n) (cen z) rows F Cr). specialize (Hp n I2).
      unfold widen. replace (real <=? wd n) with false by lia. replace (wd n =? 0) with false by lia. rewrite Bool.andb_false_r. reflexivity.
Qed.

(** An element without an entry. *)
Lemma dict_missing (order : list Z -> list Z) (maxs : list (Z * Z)) s : lists_set order -> (forall s, In s sites -> fst s <> 0%Z) -> In s sites -> ~ In (fst s) (map fst maxs) ->
  calc_tildeR argsort order A B C rcut rs s0 s1 s2 maxs sites = Err KeyError \/ calc_tildeR argsort order A B C rcut rs s0 s1 s2 maxs sites = Err ValueError.
Proof.
  intros Ho Hz Is Ns. destruct (pair_sem argsort A B C Hsort Hdet rcut rs s0 s1 s2 sites O0 O1 O2 Hsep Hrc Hsites) as (sup & table & cen & En & Cp & Cen & Sem).
  unfold calc_tildeR. rewrite En. cbn [bind]. unfold pair_values. set (es := order (map fst sites)).
  assert (Hes : forall z, In z es -> z <> 0%Z) by (intros z I; apply (proj1 (proj2 (Ho (map fst sites)) z)) in I; apply in_map_iff in I; destruct I as (s' & <- & I'); apply Hz; exact I').
  assert (Ie : In (fst s) es) by (apply (proj2 (proj2 (Ho (map fst sites)) (fst s))); apply in_map; exact Is).
  assert (No : forall z, max_of maxs z = Err KeyError \/ exists m, max_of maxs z = Ok m) by (intros z; clear; induction maxs as [|[k v] r IH]; [left; reflexivity|cbn; destruct (k =? z)%Z; [right; eexists; reflexivity|exact IH]]).
  assert (Miss : max_of maxs (fst s) = Err KeyError).
  { clear - Ns. induction maxs as [|[k v] r IH]; [reflexivity|]. cbn in *. destruct (k =? fst s)%Z eqn:K; [exfalso; apply Ns; left; lia|apply IH; tauto]. }
  assert (Each : forall z n, In n es -> (exists y, pair_value rcut rs table maxs z n = Ok y) \/ exists e, (e = KeyError \/ e = ValueError) /\ pair_value rcut rs table maxs z n = Err e).
  { intros z n I. unfold pair_value. destruct (Sem z n (Hes n I)) as (real & rows & -> & _ & _). cbn [bind fst snd]. destruct (No n) as [->|(m & ->)]; cbn [bind]; [right; exists KeyError; auto|].
    unfold padded, widen. destruct (m <? 0)%Z; [right; exists ValueError; auto|]. destruct (real <=? Z.to_nat m); [left; eexists; reflexivity|]. destruct ((real =? 1) && (Z.to_nat m =? 0)); [left; eexists; reflexivity|right; exists ValueError; auto]. }
  assert (Inner : forall z, (exists ys, mapM (pair_value rcut rs table maxs z) es = Ok ys) \/ exists e, (e = KeyError \/ e = ValueError) /\ mapM (pair_value rcut rs table maxs z) es = Err e).
  { intros z. apply mapM_errs. intros n I. apply Each. exact I. }
  destruct (mapM_errs (fun e => e = KeyError \/ e = ValueError) (fun z => mapM (pair_value rcut rs table maxs z) es) es) as [(ys & Y)|(e & [-> | ->] & Y)].
  - intros z _. apply Inner.
  - exfalso. assert (X : exists e, mapM (pair_value rcut rs table maxs (fst s)) es = Err e).
    { apply (mapM_err _ es (fst s) KeyError Ie). unfold pair_value. destruct (Sem (fst s) (fst s) (Hes _ Ie)) as (real & rows & -> & _ & _). cbn [bind]. rewrite Miss. reflexivity. }
    destruct X as (e & X). destruct (mapM_err (fun z => mapM (pair_value rcut rs table maxs z) es) es (fst s) e Ie X) as (e' & Z'). congruence.
  - left. rewrite Y. reflexivity.
  - right. rewrite Y. reflexivity.
Qed.
End Final.

(** What is refused whatever the structure. *)
Lemma flat_refused argsort A B C rcut rs s0 s1 s2 sites centers nbrs sel :
  centers = [] \/ nbrs = [] \/ length sel < length nbrs \/ Exists (fun m => (m < 0)%Z) (firstn (length nbrs) sel) ->
  exists e, flat_of argsort A B C rcut rs s0 s1 s2 sites centers nbrs sel = Err e.
Proof.
  intros H. unfold flat_of. destruct (structure_neighbors_v1 argsort A B C sites rcut s0 s1 s2 true) as [table|e]; [|eexists; reflexivity]. cbn [bind]. unfold flat_feature.
  destruct centers as [|c centers]; [eexists; reflexivity|]. destruct H as [H|H]; [discriminate|].
  destruct nbrs as [|n nbrs].
  { assert (X : mapM (fun c => mapM (flat_block rcut rs table sel c) (enumerate [])) (c :: centers) = Ok (map (fun _ => []) (c :: centers))) by (apply mapM_all; intros; reflexivity). rewrite X. cbn [bind].
    assert (Y : forall l : list Z, concat (map (fun _ => @nil (list R)) l) = []) by (induction l as [|x l IH]; [reflexivity|exact IH]). rewrite Y. eexists. reflexivity. }
  destruct H as [H|H]; [discriminate|].
  assert (X : exists i x e, nth_error (n :: nbrs) i = Some x /\ flat_block rcut rs table sel c (i, x) = Err e).
  { destruct H as [H|H].
    - destruct (nth_error (n :: nbrs) (length sel)) as [x|] eqn:K; [|apply nth_error_None in K; lia]. exists (length sel), x, IndexError. split; [exact K|]. unfold flat_block, get. cbn [fst snd]. replace (nth_error sel (length sel)) with (@None Z) by (symmetry; apply nth_error_None; lia). reflexivity.
    - apply Exists_exists in H. destruct H as (m & Im & Neg). apply In_nth_error in Im. destruct Im as (i & Hi). assert (Li : i < length (n :: nbrs)). { assert (i < length (firstn (length (n :: nbrs)) sel)) by (apply nth_error_Some; congruence). rewrite firstn_length in *. lia. }
      destruct (nth_error (n :: nbrs) i) as [x|] eqn:K; [|apply nth_error_None in K; lia]. exists i, x.
      assert (Hi' : nth_error sel i = Some m). { rewrite <- (firstn_skipn (length (n :: nbrs)) sel). rewrite nth_error_app1; [exact Hi|apply nth_error_Some; congruence]. }
      unfold flat_block, get. cbn [fst snd]. rewrite Hi'. cbn [bind]. destruct (pair_tilde rcut rs table c x) as [f|e]; [|eexists; split; [exact K|reflexivity]]. cbn [bind]. unfold padded. replace (m <? 0)%Z with true by lia. eexists. split; [exact K|reflexivity]. }
  destruct X as (i & x & e & Hi & He). destruct (mapM_err (flat_block rcut rs table sel c) _ _ e (enum_nth _ _ _ Hi) He) as (e' & He'). cbn [mapM]. rewrite He'. eexists. reflexivity.
Qed.
