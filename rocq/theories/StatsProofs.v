(** Lemmas about normalisation. *)
From Verif Require Import Arr StatsModel StatsSpec NbMlffProofs.
From Coq Require Import Lra Lia.
Open Scope R_scope.

Lemma sum_total l : sumR l = total l.
Proof. induction l as [|x l IH]; cbn; [reflexivity|]. unfold sumR in IH. rewrite IH. reflexivity. Qed.
Lemma total_app a b : total (a ++ b) = total a + total b.
Proof. induction a as [|x a IH]; cbn; [ring|]. rewrite IH. ring. Qed.
Lemma total_sq l m : total (map (fun x => (x - m) * (x - m)) l) = total (map (fun x => x * x) l) - 2 * m * total l + INR (length l) * (m * m).
Proof. induction l as [|x l IH]; [cbn; ring|]. cbn [map total length]. rewrite IH, S_INR. ring. Qed.
Lemma total_nonneg l : Forall (fun x => 0 <= x) l -> 0 <= total l.
Proof. induction 1; cbn; lra. Qed.
Lemma len_pos {A} (l : list A) : l <> [] -> 0 < INR (length l).
Proof. intros H. apply lt_0_INR. destruct l; [contradiction|cbn; lia]. Qed.
Lemma mean_nonneg l : Forall (fun x => 0 <= x) l -> 0 <= mean l.
Proof. intros H. destruct l as [|x l]; [unfold mean; cbn; unfold Rdiv; lra|]. unfold mean. apply Rmult_le_pos; [apply total_nonneg; exact H|]. left. apply Rinv_0_lt_compat, len_pos. discriminate. Qed.
Lemma squares_nonneg m l : Forall (fun x => 0 <= x) (map (fun x => (x - m) * (x - m)) l).
Proof. apply Forall_forall. intros y Hy. apply in_map_iff in Hy. destruct Hy as (x & <- & _). apply Rle_0_sqr. Qed.
Lemma variance l : l <> [] -> total (map (fun x => x * x) l) / INR (length l) - (total l / INR (length l)) * (total l / INR (length l)) = mean (map (fun x => (x - mean l) * (x - mean l)) l).
Proof. intros H. assert (P := len_pos l H). unfold mean at 1. rewrite map_length, total_sq. unfold mean. field. lra. Qed.
Lemma deviation_nonneg l : 0 <= deviation l.
Proof. apply sqrt_pos. Qed.

(** The deviation delivered for a sample, given its sum and sum of squares up to a common factor. *)
Lemma calc_std_sample l k N : l <> [] -> (0 < N)%nat -> 0 < k -> INR (length l) = k * INR N ->
  calc_std (total (map (fun x => x * x) l) / k) (total l / k) N = Some (Rmax (1 / 100) (deviation l)).
Proof.
  intros Hl HN Hk E. assert (P := len_pos l Hl). assert (PN : 0 < INR N) by (apply lt_0_INR; exact HN). destruct N as [|N]; [lia|]. unfold calc_std.
  replace (total (map (fun x => x * x) l) / k / INR (S N) - total l / k / INR (S N) * (total l / k / INR (S N)))
    with (mean (map (fun x => (x - mean l) * (x - mean l)) l)).
  - unfold np_sqrt. assert (M := mean_nonneg _ (squares_nonneg (mean l) l)). destruct (Rlt_dec _ 0) as [L|_]; [lra|]. fold (deviation l). assert (D := deviation_nonneg l). rewrite Rabs_pos_eq by exact D.
    destruct (Rlt_dec (deviation l) (1 / 100)) as [L|L]; f_equal; [rewrite Rmax_left by lra|rewrite Rmax_right by lra]; reflexivity.
  - rewrite <- (variance l Hl), E. field. lra.
Qed.

Lemma angles_length (rows : list row4) : length (flat_map ang rows) = (3 * length rows)%nat.
Proof. induction rows as [|r rows IH]; [reflexivity|]. cbn [flat_map]. rewrite app_length, IH. cbn. lia. Qed.

Lemma stats_ok rows : rows <> [] -> exists dr da,
  calc_stats rows = ((mean (map rad rows) * (INR (length rows) / (INR (length rows) + 1 / 10 ^ 15)), 0, 0, 0), (Some dr, Some da, Some da, Some da)) /\
  dr = Rmax (1 / 100) (deviation (map rad rows)) /\ da = Rmax (1 / 100) (deviation (flat_map ang rows)).
Proof.
  intros H. eexists. eexists. split; [|split; reflexivity]. unfold calc_stats. cbv zeta. rewrite (sum_total (map rad rows)), (sum_total (flat_map ang rows)), (sum_total (map _ (map rad rows))), (sum_total (map _ (flat_map ang rows))), map_length. assert (P := len_pos rows H).
  assert (N : (0 < length rows)%nat) by (destruct rows; [contradiction|cbn; lia]).
  assert (X := calc_std_sample (map rad rows) 1 (length rows) ltac:(destruct rows; [contradiction|discriminate]) N ltac:(lra) ltac:(rewrite map_length; ring)). unfold Rdiv at 1 2 in X. rewrite Rinv_1, !Rmult_1_r in X.
  assert (Y := calc_std_sample (flat_map ang rows) 3 (length rows) ltac:(destruct rows; [contradiction|discriminate]) N ltac:(lra) ltac:(rewrite angles_length, mult_INR; cbn; ring)).
  cbv zeta. rewrite X, Y.
  assert (W : total (map rad rows) / (INR (length rows) + 1 / 10 ^ 15) = mean (map rad rows) * (INR (length rows) / (INR (length rows) + 1 / 10 ^ 15))).
  { unfold mean. rewrite map_length. assert (0 < 1 / 10 ^ 15) by (apply Rdiv_lt_0_compat; [lra|apply pow_lt; lra]). set (e := 1 / 10 ^ 15) in *. field. split; lra. }
  rewrite W. reflexivity.
Qed.
Lemma stats_empty : calc_stats [] = ((0, 0, 0, 0), (Some (1 / 100), Some (1 / 100), Some (1 / 100), Some (1 / 100))).
Proof. unfold calc_stats. cbn. f_equal. f_equal. f_equal. f_equal. unfold Rdiv. ring. Qed.

Lemma stats_floor rows : exists a0 d0 d1 d2 d3, calc_stats rows = ((a0, 0, 0, 0), (Some d0, Some d1, Some d2, Some d3)) /\ 1 / 100 <= d0 /\ 1 / 100 <= d1 /\ 1 / 100 <= d2 /\ 1 / 100 <= d3.
Proof.
  destruct rows as [|r rows]; [rewrite stats_empty; do 5 eexists; split; [reflexivity|]; lra|]. destruct (stats_ok (r :: rows) ltac:(discriminate)) as (dr & da & -> & -> & ->).
  do 5 eexists. split; [reflexivity|]. repeat split; apply Rmax_l.
Qed.

Lemma mean_close rows a d : rows <> [] -> calc_stats rows = ((a, 0, 0, 0), d) -> Rabs (a - mean (map rad rows)) <= Rabs (mean (map rad rows)) / 10 ^ 15.
Proof.
  intros H E. destruct (stats_ok rows H) as (dr & da & E' & _). assert (A : a = mean (map rad rows) * (INR (length rows) / (INR (length rows) + 1 / 10 ^ 15))) by congruence. rewrite A. clear E E' A.
  set (m := mean (map rad rows)). set (n := INR (length rows)). set (e := 1 / 10 ^ 15). assert (He : 0 < e) by (apply Rdiv_lt_0_compat; [lra|apply pow_lt; lra]).
  assert (Hn : 1 <= n) by (unfold n; apply (le_INR 1); destruct rows; [contradiction|cbn; lia]).
  replace (m * (n / (n + e)) - m) with (- m * (e / (n + e))) by (field; lra). rewrite Rabs_mult, Rabs_Ropp. unfold Rdiv at 2. apply Rmult_le_compat_l; [apply Rabs_pos|].
  replace (/ 10 ^ 15) with e by (unfold e; lra). assert (0 < e / (n + e)) by (apply Rdiv_lt_0_compat; lra). rewrite Rabs_pos_eq by lra. apply (Rmult_le_reg_r (n + e)); [lra|]. unfold Rdiv. rewrite Rmult_assoc, Rinv_l, Rmult_1_r by lra. nra.
Qed.

(** *** Normalised samples *)
Lemma total_affine a d l : d <> 0 -> total (map (fun x => (x - a) / d) l) = (total l - INR (length l) * a) / d.
Proof. intros H. induction l as [|x l IH]; [cbn; field; exact H|]. cbn [map total length]. rewrite IH, S_INR. field. exact H. Qed.
Lemma mean_affine a d l : d <> 0 -> l <> [] -> mean (map (fun x => (x - a) / d) l) = (mean l - a) / d.
Proof. intros H Hl. assert (P := len_pos l Hl). unfold mean. rewrite map_length, (total_affine a d l H). field. lra. Qed.
Lemma deviation_affine a d l : 0 < d -> l <> [] -> deviation (map (fun x => (x - a) / d) l) = deviation l / d.
Proof.
  intros H Hl. unfold deviation. rewrite (mean_affine a d l) by (lra || assumption). rewrite map_map.
  replace (map (fun x => ((x - a) / d - (mean l - a) / d) * ((x - a) / d - (mean l - a) / d)) l) with (map (fun y => (y - 0) / (d * d)) (map (fun x => (x - mean l) * (x - mean l)) l)).
  - rewrite mean_affine; [|nra|destruct l; [contradiction|discriminate]]. rewrite Rminus_0_r. rewrite sqrt_div_alt by nra. rewrite sqrt_square by lra. reflexivity.
  - rewrite map_map. apply map_ext. intros x. field. lra.
Qed.

Lemma normalized_unit rows davg dstd : rows <> [] -> calc_stats rows = (davg, (Some (fst (fst (fst dstd))), Some (snd (fst (fst dstd))), Some (snd (fst dstd)), Some (snd dstd))) ->
  let out := map (normalize_row davg dstd) rows in
  deviation (map rad out) = deviation (map rad rows) / Rmax (1 / 100) (deviation (map rad rows)) /\
  deviation (flat_map ang out) = deviation (flat_map ang rows) / Rmax (1 / 100) (deviation (flat_map ang rows)) /\
  Rabs (mean (map rad out)) <= Rabs (mean (map rad rows)) / 10 ^ 13.
Proof.
  intros H E. destruct (stats_ok rows H) as (dr & da & E' & Er & Ea). rewrite E in E'. destruct dstd as [[[d0 d1] d2] d3]. cbn [fst snd] in E'.
  assert (Ed : davg = (mean (map rad rows) * (INR (length rows) / (INR (length rows) + 1 / 10 ^ 15)), 0, 0, 0)) by congruence. assert (d0 = dr) by congruence. assert (d1 = da) by congruence. assert (d2 = da) by congruence. assert (d3 = da) by congruence. clear E'. subst d0 d1 d2 d3. rewrite Ed in *. clear Ed. cbv zeta.
  assert (L1 := Rmax_l (1 / 100) (deviation (map rad rows))). assert (L2 := Rmax_l (1 / 100) (deviation (flat_map ang rows))). rewrite <- Er in L1 |- *. rewrite <- Ea in L2 |- *.
  set (a := mean (map rad rows) * (INR (length rows) / (INR (length rows) + 1 / 10 ^ 15))) in *.
  assert (R1 : map rad (map (normalize_row (a, 0, 0, 0) (dr, da, da, da)) rows) = map (fun x => (x - a) / dr) (map rad rows)).
  { rewrite !map_map. apply map_ext. intros [[[x0 x1] x2] x3]. reflexivity. }
  assert (R2 : flat_map ang (map (normalize_row (a, 0, 0, 0) (dr, da, da, da)) rows) = map (fun x => (x - 0) / da) (flat_map ang rows)).
  { clearbody a. clear. induction rows as [|[[[x0 x1] x2] x3] rows IH]; [reflexivity|]. cbn [map flat_map]. rewrite map_app, IH. reflexivity. }
  rewrite R1, R2. assert (N1 : map rad rows <> []) by (destruct rows; [contradiction|discriminate]). assert (N2 : flat_map ang rows <> []) by (destruct rows; [contradiction|discriminate]).
  split; [apply deviation_affine; [lra|exact N1]|]. split; [apply deviation_affine; [lra|exact N2]|].
  rewrite mean_affine by (lra || assumption). assert (C := mean_close rows a _ H E). rewrite <- Rabs_Ropp in C. replace (- (a - mean (map rad rows))) with (mean (map rad rows) - a) in C by ring.
  set (m := mean (map rad rows)) in *. unfold Rdiv at 1. rewrite Rabs_mult, Rabs_inv. rewrite (Rabs_pos_eq dr) by lra.
  assert (I : / dr <= 100). { apply (Rmult_le_reg_l dr); [lra|]. rewrite Rinv_r by lra. lra. }
  assert (Hm := Rabs_pos m). assert (0 < / dr) by (apply Rinv_0_lt_compat; lra). assert (Hp := Rabs_pos (m - a)).
  assert (T : Rabs m / 10 ^ 15 * 100 = Rabs m / 10 ^ 13) by field. rewrite <- T. apply Rmult_le_compat; lra.
Qed.

Lemma normalize_inverse davg d0 d1 d2 d3 r : d0 <> 0 -> d1 <> 0 -> d2 <> 0 -> d3 <> 0 ->
  let '(a0, a1, a2, a3) := davg in let '(y0, y1, y2, y3) := normalize_row davg (d0, d1, d2, d3) r in
  r = (y0 * d0 + a0, y1 * d1 + a1, y2 * d2 + a2, y3 * d3 + a3).
Proof. intros H0 H1 H2 H3. destruct davg as [[[a0 a1] a2] a3], r as [[[x0 x1] x2] x3]. cbn. repeat f_equal; field; assumption. Qed.

Lemma scaled_derivative (f : R -> R) (a d x l : R) : derivable_pt_lim f x l -> derivable_pt_lim (fun t => (f t - a) / d) x (l / d).
Proof.
  intros H. unfold Rdiv. replace (l * / d) with ((l - 0) * / d + (f x - a) * 0) by ring.
  apply (derivable_pt_lim_mult (fun t => f t - a) (fun _ => / d) x (l - 0) 0); [|apply derivable_pt_lim_const].
  apply (derivable_pt_lim_minus f (fun _ => a) x l 0); [exact H|apply derivable_pt_lim_const].
Qed.
Lemma normalized_derivative (r0 r1 r2 r3 : R -> R) x l0 l1 l2 l3 davg dstd : derivable_pt_lim r0 x l0 -> derivable_pt_lim r1 x l1 -> derivable_pt_lim r2 x l2 -> derivable_pt_lim r3 x l3 ->
  let n := fun t => normalize_row davg dstd (r0 t, r1 t, r2 t, r3 t) in let g := normalize_derivative_row dstd (l0, l1, l2, l3) in
  derivable_pt_lim (fun t => fst (fst (fst (n t)))) x (fst (fst (fst g))) /\ derivable_pt_lim (fun t => snd (fst (fst (n t)))) x (snd (fst (fst g))) /\
  derivable_pt_lim (fun t => snd (fst (n t))) x (snd (fst g)) /\ derivable_pt_lim (fun t => snd (n t)) x (snd g).
Proof. intros H0 H1 H2 H3. destruct davg as [[[a0 a1] a2] a3], dstd as [[[d0 d1] d2] d3]. cbn. repeat split; apply scaled_derivative; assumption. Qed.

(** *** Assembly *)
Section Assemble.
Context {F : Type}.
Variable blocks : Z -> Z -> list (list F).
Lemma dict_row c nbrs n : forall rest, dict_get (map (fun n => ((c, n), blocks c n)) nbrs ++ rest) c n = if existsb (Z.eqb n) nbrs then Ok (blocks c n) else dict_get rest c n.
Proof.
  intros rest. induction nbrs as [|m nbrs IH]; [reflexivity|]. cbn [map app dict_get existsb]. rewrite Z.eqb_refl. cbn [andb]. destruct (n =? m)%Z eqn:E; [apply Z.eqb_eq in E; subst; reflexivity|exact IH].
Qed.
Lemma dict_other c c' nbrs n : c <> c' -> forall rest, dict_get (map (fun n => ((c', n), blocks c' n)) nbrs ++ rest) c n = dict_get rest c n.
Proof. intros H rest. induction nbrs as [|m nbrs IH]; [reflexivity|]. cbn [map app dict_get]. replace (c =? c')%Z with false by lia. exact IH. Qed.
Lemma dict_spec centers nbrs c n : dict_get (block_dict blocks centers nbrs) c n = if (existsb (Z.eqb c) centers && existsb (Z.eqb n) nbrs)%bool then Ok (blocks c n) else Err KeyError.
Proof.
  unfold block_dict. induction centers as [|k centers IH]; [reflexivity|]. cbn [flat_map existsb]. destruct (c =? k)%Z eqn:E.
  - apply Z.eqb_eq in E. subst k. rewrite dict_row. cbn [orb andb]. destruct (existsb (Z.eqb n) nbrs) eqn:En; [reflexivity|]. rewrite IH, andb_false_r. reflexivity.
  - apply Z.eqb_neq in E. rewrite dict_other by exact E. exact IH.
Qed.

Lemma hcat2_nth (a b : list (list F)) i row : nth_error (hcat2 a b) i = Some row <-> exists x y, nth_error a i = Some x /\ nth_error b i = Some y /\ row = x ++ y.
Proof.
  revert b i. induction a as [|x a IH]; intros [|y b] [|i]; cbn; try (split; [discriminate|intros (u & v & H1 & H2 & _); discriminate]).
  - split; [intros [= <-]; exists x, y; auto|intros (u & v & [= <-] & [= <-] & ->); reflexivity].
  - apply IH.
Qed.
Lemma hcat2_len (a b : list (list F)) : length a = length b -> length (hcat2 a b) = length a.
Proof. revert b. induction a as [|x a IH]; intros [|y b] H; cbn in *; try discriminate; [reflexivity|]. f_equal. apply IH. lia. Qed.
Lemma fold_hcat2 : forall (ps : list (list (list F))) acc i row, nth_error (fold_left hcat2 ps acc) i = Some row <-> exists x pieces, nth_error acc i = Some x /\ Forall2 (fun p piece => nth_error p i = Some piece) ps pieces /\ row = x ++ concat pieces.
Proof.
  induction ps as [|p ps IH]; intros acc i row; cbn [fold_left].
  - split; [intros H; exists row, []; split; [exact H|split; [constructor|cbn; rewrite app_nil_r; reflexivity]]|intros (x & pieces & H & Fp & ->); inversion Fp; subst; cbn; rewrite app_nil_r; exact H].
  - rewrite IH. split.
    + intros (x & pieces & H & Fp & ->). apply hcat2_nth in H. destruct H as (u & v & Hu & Hv & ->). exists u, (v :: pieces). split; [exact Hu|]. split; [constructor; assumption|]. cbn. rewrite app_assoc. reflexivity.
    + intros (x & pieces & H & Fp & ->). inversion Fp as [|? v ? pieces' Hv Fp']; subst. exists (x ++ v), pieces'. split; [apply hcat2_nth; exists x, v; auto|]. split; [exact Fp'|]. cbn. rewrite app_assoc. reflexivity.
Qed.

Variables (count width : Z -> nat).
Lemma centre_part c columns : columns <> [] -> (forall n, In n columns -> length (blocks c n) = count c) -> exists part, hcat (map (blocks c) columns) = Ok part /\
  (forall i row, nth_error part i = Some row <-> exists pieces, Forall2 (fun n piece => nth_error (blocks c n) i = Some piece) columns pieces /\ row = concat pieces).
Proof.
  destruct columns as [|n0 ns]; [contradiction|]. intros _ H. cbn [map hcat].
  assert (E : forallb (fun q => Nat.eqb (length q) (length (blocks c n0))) (map (blocks c) ns) = true).
  { apply forallb_forall. intros q Hq. apply in_map_iff in Hq. destruct Hq as (n & <- & Hn). apply Nat.eqb_eq. rewrite (H n (or_intror Hn)), (H n0 (or_introl eq_refl)). reflexivity. }
  rewrite E. eexists. split; [reflexivity|]. intros i row. rewrite fold_hcat2. split.
  - intros (x & pieces & Hx & Fp & ->). exists (x :: pieces). split; [|reflexivity]. constructor; [exact Hx|]. clear - Fp. remember (map (blocks c) ns) as l. revert ns Heql. induction Fp as [|p piece l pieces Hp Fp IH]; intros [|n ns] E; try discriminate; constructor; cbn in E; injection E as -> E; [exact Hp|exact (IH ns E)].
  - intros (pieces & Fp & ->). inversion Fp as [|? x ? pieces' Hx Fp']; subst. exists x, pieces'. split; [exact Hx|]. split; [|reflexivity]. clear - Fp'. induction Fp'; cbn; constructor; assumption.
Qed.
Lemma row_width c columns pieces i : (forall n, In n columns -> Forall (fun r => length r = width n) (blocks c n)) -> Forall2 (fun n piece => nth_error (blocks c n) i = Some piece) columns pieces ->
  length (concat pieces) = fold_right plus 0%nat (map width columns).
Proof.
  intros H Fp. induction Fp as [|n piece columns pieces Hp Fp IH]; [reflexivity|]. cbn [concat map fold_right]. rewrite app_length, IH by (intros m Hm; apply H; right; exact Hm). f_equal.
  specialize (H n (or_introl eq_refl)). rewrite Forall_forall in H. apply H. exact (nth_error_In _ _ Hp).
Qed.

Lemma assemble_ok centers nbrs : centers <> [] -> (forall c, In c centers -> In c nbrs) ->
  (forall c n, In c centers -> In n centers -> length (blocks c n) = count c /\ Forall (fun r => length r = width n) (blocks c n)) ->
  exists out, assemble blocks centers nbrs = Ok out /\ assembled blocks centers centers out /\ Forall (fun r => length r = fold_right plus 0%nat (map width centers)) out.
Proof.
  intros Hc Hin Hb. unfold assemble.
  assert (G : forall c, In c centers -> mapM (fun n => dict_get (block_dict blocks centers nbrs) c n) centers = Ok (map (blocks c) centers)).
  { intros c Ic. assert (X : forall l, (forall n, In n l -> In n centers) -> mapM (fun n => dict_get (block_dict blocks centers nbrs) c n) l = Ok (map (blocks c) l)).
    { induction l as [|n l IH]; intros Hl; [reflexivity|]. cbn [mapM map]. rewrite dict_spec.
      replace (existsb (Z.eqb c) centers) with true by (symmetry; apply existsb_exists; exists c; split; [exact Ic|apply Z.eqb_refl]).
      replace (existsb (Z.eqb n) nbrs) with true by (symmetry; apply existsb_exists; exists n; split; [apply Hin, Hl; left; reflexivity|apply Z.eqb_refl]). cbn [andb bind]. rewrite IH by (intros m Hm; apply Hl; right; exact Hm). reflexivity. }
    apply X. auto. }
  assert (P : exists parts, mapM (fun c => bind (mapM (fun n => dict_get (block_dict blocks centers nbrs) c n) centers) hcat) centers = Ok parts /\
    Forall2 (fun c part => forall i row, nth_error part i = Some row <-> exists pieces, Forall2 (fun n piece => nth_error (blocks c n) i = Some piece) centers pieces /\ row = concat pieces) centers parts).
  { assert (X : forall l, (forall c, In c l -> In c centers) -> exists parts, mapM (fun c => bind (mapM (fun n => dict_get (block_dict blocks centers nbrs) c n) centers) hcat) l = Ok parts /\
      Forall2 (fun c part => forall i row, nth_error part i = Some row <-> exists pieces, Forall2 (fun n piece => nth_error (blocks c n) i = Some piece) centers pieces /\ row = concat pieces) l parts).
    { induction l as [|c l IH]; intros Hl; [exists []; split; [reflexivity|constructor]|]. cbn [mapM]. rewrite (G c (Hl c (or_introl eq_refl))). cbn [bind].
      destruct (centre_part c centers Hc) as (part & Ep & Hp); [intros n In'; exact (proj1 (Hb c n (Hl c (or_introl eq_refl)) In'))|]. rewrite Ep. cbn [bind].
      destruct IH as (parts & E & F0); [intros x Hx; apply Hl; right; exact Hx|]. rewrite E. cbn [bind]. exists (part :: parts). split; [reflexivity|]. constructor; assumption. }
    apply X. auto. }
  destruct P as (parts & E & F0). rewrite E. cbn [bind].
  assert (W : Forall (fun r => length r = fold_right plus 0%nat (map width centers)) (concat parts)).
  { apply Forall_forall. intros r Ir. apply in_concat in Ir. destruct Ir as (part & Ip & Ir). apply In_nth_error in Ip. destruct Ip as (k & Ek).
    assert (exists c, In c centers /\ forall i row, nth_error part i = Some row <-> exists pieces, Forall2 (fun n piece => nth_error (blocks c n) i = Some piece) centers pieces /\ row = concat pieces) as (c & Ic & Hp).
    { clear - F0 Ek. assert (X : forall cs ps, Forall2 (fun c part => forall i row, nth_error part i = Some row <-> exists pieces, Forall2 (fun n piece => nth_error (blocks c n) i = Some piece) centers pieces /\ row = concat pieces) cs ps -> forall k, nth_error ps k = Some part -> exists c, In c cs /\ forall i row, nth_error part i = Some row <-> exists pieces, Forall2 (fun n piece => nth_error (blocks c n) i = Some piece) centers pieces /\ row = concat pieces).
      { clear. intros cs ps F0. induction F0 as [|c p cs ps H F0 IH]; intros [|k] Ek; cbn in Ek; try discriminate; [injection Ek as ->; exists c; split; [left; reflexivity|exact H]|]. destruct (IH k Ek) as (c' & I & H'). exists c'. split; [right; exact I|exact H']. }
      exact (X _ _ F0 k Ek). }
    apply In_nth_error in Ir. destruct Ir as (i & Ei). apply Hp in Ei. destruct Ei as (pieces & Fp & ->). apply (row_width c centers pieces i); [|exact Fp]. intros n In'. exact (proj2 (Hb c n Ic In')). }
  destruct parts as [|p ps]; [inversion F0; subst; contradiction|].
  exists (concat (p :: ps)). split; [|split; [exists (p :: ps); split; [reflexivity|exact F0]|exact W]].
  unfold vcat. destruct (concat (p :: ps)) as [|r rest] eqn:Ec; [reflexivity|]. inversion W as [|? ? W1 W2]; subst. replace (forallb _ rest) with true; [reflexivity|]. symmetry. apply forallb_forall. intros x Hx. rewrite Forall_forall in W2. apply Nat.eqb_eq. rewrite W1. apply W2. exact Hx.
Qed.

Lemma assemble_missing centers nbrs c : In c centers -> ~ In c nbrs -> assemble blocks centers nbrs = Err KeyError.
Proof.
  intros Ic Nc. unfold assemble. destruct centers as [|c0 rest]; [destruct Ic|]. set (all := c0 :: rest) in *.
  assert (X : mapM (fun n => dict_get (block_dict blocks all nbrs) c0 n) all = Err KeyError).
  { assert (Y : forall l, In c l -> mapM (fun n => dict_get (block_dict blocks all nbrs) c0 n) l = Err KeyError).
    { induction l as [|n l IH]; intros I; [destruct I|]. cbn [mapM]. rewrite dict_spec. destruct (existsb (Z.eqb n) nbrs) eqn:E.
      - replace (existsb (Z.eqb c0) all) with true by (symmetry; apply existsb_exists; exists c0; split; [left; reflexivity|apply Z.eqb_refl]). cbn [andb bind].
        destruct I as [->|I]; [|rewrite (IH I); reflexivity]. apply existsb_exists in E. destruct E as (x & Ix & Ex). apply Z.eqb_eq in Ex. subst x. contradiction.
      - rewrite andb_false_r. reflexivity. }
    apply Y. exact Ic. }
  assert (Eall : mapM (fun c => bind (mapM (fun n => dict_get (block_dict blocks all nbrs) c n) all) hcat) all = Err KeyError); [|rewrite Eall; reflexivity].
  unfold all at 3. cbn [mapM]. rewrite X. reflexivity.
Qed.
Lemma hcat_value (parts : list (list (list F))) : (exists out, hcat parts = Ok out) \/ hcat parts = Err ValueError.
Proof. destruct parts as [|p r]; cbn; [now right|]. destruct (forallb _ r); [left; eauto|now right]. Qed.
Lemma vcat_value (parts : list (list (list F))) : (exists out, vcat parts = Ok out) \/ vcat parts = Err ValueError.
Proof. destruct parts as [|p r]; [now right|]. unfold vcat. destruct (concat (p :: r)) as [|x rest]; [left; eauto|]. destruct (forallb _ rest); [left; eauto|now right]. Qed.
Lemma hcat_bad p q (parts : list (list (list F))) : In p parts -> In q parts -> length p <> length q -> hcat parts = Err ValueError.
Proof.
  intros Ip Iq N. destruct parts as [|p0 r]; [destruct Ip|]. cbn. destruct (forallb (fun q => Nat.eqb (length q) (length p0)) r) eqn:E; [|reflexivity]. exfalso. apply N.
  assert (K : forall x, In x (p0 :: r) -> length x = length p0) by (intros x [<-|I]; [reflexivity|]; rewrite forallb_forall in E; apply Nat.eqb_eq; auto). rewrite (K p Ip), (K q Iq). reflexivity.
Qed.
Lemma lookups centers nbrs c : (forall c, In c centers -> In c nbrs) -> In c centers -> mapM (fun n => dict_get (block_dict blocks centers nbrs) c n) centers = Ok (map (blocks c) centers).
Proof.
  intros Hin Ic. assert (X : forall l, (forall n, In n l -> In n centers) -> mapM (fun n => dict_get (block_dict blocks centers nbrs) c n) l = Ok (map (blocks c) l)).
  { induction l as [|n l IH]; intros Hl; [reflexivity|]. cbn [mapM map]. rewrite dict_spec.
    replace (existsb (Z.eqb c) centers) with true by (symmetry; apply existsb_exists; exists c; split; [exact Ic|apply Z.eqb_refl]).
    replace (existsb (Z.eqb n) nbrs) with true by (symmetry; apply existsb_exists; exists n; split; [apply Hin, Hl; left; reflexivity|apply Z.eqb_refl]). cbn [andb bind]. rewrite IH by (intros m Hm; apply Hl; right; exact Hm). reflexivity. }
  apply X. auto.
Qed.
Lemma assemble_rejected centers nbrs : (forall c, In c centers -> In c nbrs) ->
  ((exists out, assemble blocks centers nbrs = Ok out) \/ assemble blocks centers nbrs = Err ValueError) /\
  (centers = [] \/ (exists c n n', In c centers /\ In n centers /\ In n' centers /\ length (blocks c n) <> length (blocks c n')) -> assemble blocks centers nbrs = Err ValueError).
Proof.
  intros Hin. unfold assemble. set (g := fun c => bind (mapM (fun n => dict_get (block_dict blocks centers nbrs) c n) centers) hcat).
  assert (G : forall c, In c centers -> g c = hcat (map (blocks c) centers)) by (intros c Ic; unfold g; rewrite lookups by assumption; reflexivity).
  assert (M : forall l, (forall c, In c l -> In c centers) -> (exists out, mapM g l = Ok out) \/ mapM g l = Err ValueError).
  { induction l as [|c l IH]; intros Hl; [left; exists []; reflexivity|]. cbn [mapM]. rewrite (G c (Hl c (or_introl eq_refl))). destruct (hcat_value (map (blocks c) centers)) as [[x ->]| ->]; [|right; reflexivity]. cbn [bind].
    destruct IH as [[y ->]| ->]; [intros d Hd; apply Hl; right; exact Hd|left; eexists; reflexivity|right; reflexivity]. }
  split.
  - destruct (M centers (fun c H => H)) as [[parts ->]| ->]; [|right; reflexivity]. cbn [bind]. apply vcat_value.
  - intros [-> |(c & n & n' & Ic & I1 & I2 & N)]; [reflexivity|].
    assert (B : g c = Err ValueError) by (rewrite G by exact Ic; apply (hcat_bad (blocks c n) (blocks c n')); [apply in_map; assumption|apply in_map; assumption|exact N]).
    assert (E : forall l, (forall c, In c l -> In c centers) -> In c l -> mapM g l = Err ValueError); [|rewrite (E centers) by auto; reflexivity].
    induction l as [|d l IH]; intros Hl I; [destruct I|]. cbn [mapM]. destruct I as [-> |I]; [rewrite B; reflexivity|]. rewrite (G d (Hl d (or_introl eq_refl))). destruct (hcat_value (map (blocks d) centers)) as [[x ->]| ->]; [|reflexivity]. cbn [bind].
    rewrite IH; [reflexivity|intros e He; apply Hl; right; exact He|exact I].
Qed.
End Assemble.

Definition two_rows : list row4 := [(1, 1, 0, 0); (3, 0, 1, 2)].
Lemma two_rows_stats : mean (map rad two_rows) = 2 /\ deviation (map rad two_rows) = 1.
Proof.
  assert (M : mean (map rad two_rows) = 2) by (unfold mean, two_rows, rad; cbn; lra). split; [exact M|]. unfold deviation. rewrite M. unfold mean, two_rows, rad. cbn. replace ((_ + _) / _) with 1 by lra. exact sqrt_1.
Qed.
Lemma columns_lost : exists (blocks : Z -> Z -> list (list Z)) out, assemble blocks [3%Z] [3%Z; 14%Z] = Ok out /\ ~ assembled blocks [3%Z] [3%Z; 14%Z] out.
Proof.
  exists (fun c n => [[c; n]]), [[3; 3]%Z]. split; [reflexivity|]. intros (parts & E & F). inversion F as [|? part ? parts' H F']; subst. inversion F'; subst. cbn in E. rewrite app_nil_r in E. subst part.
  destruct (proj1 (H 0%nat [3; 3]%Z) eq_refl) as (pieces & Fp & Ep). inversion Fp as [|? p1 ? ps H1 F1]; subst. inversion F1 as [|? p2 ? ps2 H2 F2]; subst. inversion F2; subst. cbn in H1, H2. injection H1 as <-. injection H2 as <-. discriminate.
Qed.
