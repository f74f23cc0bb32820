(** The Python binding of the neighbour list: what it returns. *)
From Coq Require Import Permutation.
From Verif Require Import Vec SeSpec NbModel NbSpec NbMlffModel NbMlffSpec NbSearchProofs NbGeomProofs NbProofs NbDupProofs NbMlffProofs NbGlue NbFinal NeighReal BindModel BindSpec.
Local Open Scope Z_scope.

(** *** Reading the arguments *)
Lemma get_all {A} (l : list A) : mapM (get l) (seq 0 (length l)) = Ok l.
Proof.
  assert (G : forall (r pre : list A), mapM (get (pre ++ r)) (seq (length pre) (length r)) = Ok r).
  { induction r as [|x r IH]; intros pre; [reflexivity|]. cbn [length seq mapM]. unfold get at 1. rewrite nth_error_app2, Nat.sub_diag by lia. cbn [nth_error bind]. specialize (IH (pre ++ [x])). rewrite <- app_assoc, app_length in IH. cbn [app length] in IH. rewrite Nat.add_comm in IH. cbn [Nat.add] in IH. rewrite IH. reflexivity. }
  exact (G l []).
Qed.
Lemma row_major_len l : length (row_major l) = (length l * 3)%nat.
Proof. induction l as [|v l IH]; [reflexivity|]. unfold row_major. cbn [flat_map]. rewrite app_length. fold (row_major l). rewrite IH. reflexivity. Qed.
Lemma read_row l i v rest : nth_error l i = Some v -> read_vec (row_major l ++ rest) i = Ok v.
Proof.
  revert i. induction l as [|u l IH]; intros [|i] H; try discriminate.
  - injection H as ->. destruct v as [[x y] z]. reflexivity.
  - cbn [nth_error] in H. unfold read_vec, row_major. cbn [flat_map]. rewrite <- app_assoc. fold (row_major l). cbn [app]. replace (S i * 3)%nat with (S (S (S (i * 3)))) by lia. cbn [Nat.add]. unfold get. cbn [nth_error]. exact (IH i H).
Qed.
Lemma read_rows l rest : mapM (read_vec (row_major l ++ rest)) (seq 0 (length l)) = Ok l.
Proof.
  assert (G : forall r k, (forall j v, nth_error r j = Some v -> read_vec (row_major l ++ rest) (k + j) = Ok v) -> mapM (read_vec (row_major l ++ rest)) (seq k (length r)) = Ok r).
  { induction r as [|v r IH]; intros k H; [reflexivity|]. cbn [length seq mapM]. assert (H0 := H 0%nat v eq_refl). rewrite Nat.add_0_r in H0. rewrite H0. cbn [bind]. rewrite IH; [reflexivity|]. intros j w Hj. replace (S k + j)%nat with (k + S j)%nat by lia. apply H. exact Hj. }
  apply (G l 0%nat). intros j v H. apply read_row. exact H.
Qed.
Lemma to_cart_comb A B C f : to_cart A B C f = comb A B C (vx f) (vy f) (vz f).
Proof. destruct A as [[? ?] ?], B as [[? ?] ?], C as [[? ?] ?], f as [[? ?] ?]. reflexivity. Qed.
Definition cell_of A B C zs xs (is_cart : bool) : cell := {| bA := A; bB := B; bC := C; numbers := zs; coords := if is_cart then xs else map (to_cart A B C) xs; origin := (0, 0, 0)%R |}.
Lemma read_ok A B C zs xs is_cart : length xs = length zs -> read_structure (row_major [A; B; C]) (length zs) zs (row_major xs) is_cart = Ok (cell_of A B C zs xs is_cart).
Proof.
  intros H. unfold read_structure. assert (R3 := fun i v H => read_row [A; B; C] i v [] H). rewrite app_nil_r in R3. rewrite (R3 0%nat A eq_refl), (R3 1%nat B eq_refl), (R3 2%nat C eq_refl). cbn [bind]. rewrite get_all. cbn [bind]. rewrite <- H. assert (Rx := read_rows xs []). rewrite app_nil_r in Rx. rewrite Rx. reflexivity.
Qed.
Lemma meant_of A B C zs xs is_cart : meant A B C zs xs is_cart (cell_of A B C zs xs is_cart).
Proof. unfold meant, cell_of. cbn [bA bB bC numbers coords]. do 4 (split; [reflexivity|]). destruct is_cart; [reflexivity|]. apply map_ext. intros f. apply to_cart_comb. Qed.
Lemma meant_len A B C zs xs is_cart c : meant A B C zs xs is_cart c -> length (coords c) = length xs.
Proof. intros (_ & _ & _ & _ & ->). destruct is_cart; [reflexivity|apply map_length]. Qed.


Section Lists.
Variables (std_sort : (nat -> nat -> bool) -> list nat -> list nat) (rcut : R) (pbc : bool * bool * bool) (c : cell).
Hypotheses (Hsort : sort_contract std_sort) (Hr : (0 < rcut)%R) (Hp : proper c) (Hw : wrapped c) (Hf : faces_positive c) (Hn : coords c <> []).
Let half : vec := ((rcut / 2)%R, (rcut / 2)%R, (rcut / 2)%R).

Lemma half_pos : positive3 half.
Proof. unfold positive3, half, vx, vy, vz. cbn. repeat split; lra. Qed.

Lemma lists_ok sort : exists sup lists ts, lists_of std_sort rcut pbc sort c = Ok (sup, lists) /\ length lists = length (coords c) /\
  (forall i x, nth_error (coords c) i = Some x -> arr_get (coords sup) (Z.of_nat i + prim_index rcut pbc c * Z.of_nat (length lists)) = Ok x) /\
  NoDup ts /\ ts <> [] /\ (forall t, In t ts -> allowed pbc t) /\
  length (coords sup) = (length ts * length (coords c))%nat /\ length (numbers sup) = length (coords sup) /\
  (forall q t a x, nth_error ts q = Some t -> nth_error (coords c) a = Some x -> nth_error (coords sup) (q * length (coords c) + a) = Some (vadd x (lattice_vec c t))) /\
  (forall q t a z, nth_error ts q = Some t -> nth_error (numbers c) a = Some z -> nth_error (numbers sup) (q * length (coords c) + a) = Some z) /\
  forall i xi l, nth_error (coords c) i = Some xi -> nth_error lists i = Some l ->
    (forall m, In m l <-> 0 <= m /\ exists p, nth_error (coords sup) (Z.to_nat m) = Some p /\ (1 / 1000 < dist2 p xi < rcut * rcut)%R) /\
    (forall j t, is_neighbour rcut pbc c i j t -> exists m xj, In m l /\ m mod Z.of_nat (length (coords c)) = Z.of_nat j /\ nth_error (coords c) j = Some xj /\ nth_error (coords sup) (Z.to_nat m) = Some (vadd xj (lattice_vec c t))) /\
    (aligned_pbc pbc c -> NoDup l) /\
    (sort = true -> by_increasing_distance (coords sup) xi l).
Proof.
  destruct (exact_final rcut half pbc c Hr half_pos Hp Hw Hf) as (sup & lists & E & Hl & Hex).
  destruct (periodic_final rcut half pbc c Hr half_pos Hp Hw Hf) as (sup1 & lists1 & E1 & _ & Hper). rewrite E in E1. injection E1 as <- <-.
  destruct (sorted_spec std_sort rcut half pbc c Hsort Hr half_pos Hp Hw Hf) as (sup2 & lists2 & sorted & E2 & Es & Hls & Hs). rewrite E in E2. injection E2 as <- <-.
  assert (HS := supercell_of_lists rcut half pbc c sup lists E). assert (Hp' := Hp). destruct Hp' as [Hnum Hdet].
  assert (HT : exists ts, NoDup ts /\ ts <> [] /\ (forall t, In t ts -> allowed pbc t) /\ length (coords sup) = (length ts * length (coords c))%nat /\ length (numbers sup) = length (coords sup) /\
    (forall q t a x z, nth_error ts q = Some t -> nth_error (coords c) a = Some x -> nth_error (numbers c) a = Some z -> nth_error (coords sup) (q * length (coords c) + a) = Some (vadd x (lattice_vec c t)) /\ nth_error (numbers sup) (q * length (coords c) + a) = Some z)).
  { clear Hex Hper Hs Es E. destruct pbc as [[w0 w1] w2]. cbn [scalings] in HS. destruct (interplanar_pos c Hdet) as [D0 [D1 D2]].
    assert (P0 := proj1 (scaling1_spec rcut w0 _ Hr D0)). assert (P1 := proj1 (scaling1_spec rcut w1 _ Hr D1)). assert (P2 := proj1 (scaling1_spec rcut w2 _ Hr D2)).
    destruct (supercell_final _ _ _ c P0 P1 P2 Hnum) as (sup' & ts & Ems & Nd & Lt & Int & Lc & Ln & Hg & _). rewrite HS in Ems. injection Ems as <-. exists ts. split; [exact Nd|]. split.
    { intros ->. cbn [length] in Lt. assert (0 < scaling1 rcut w0 (vx (interplanar c)) * scaling1 rcut w1 (vy (interplanar c)) * scaling1 rcut w2 (vz (interplanar c))) by (repeat apply Z.mul_pos_pos; assumption). lia. }
    split. { intros [[i j] k] Hin. apply Int in Hin. destruct Hin as (H0 & H1 & H2). unfold centred, scaling1 in H0, H1, H2. cbn [allowed]. split; [intros ->|split; intros ->]; lia. }
    split; [exact Lc|]. split; [exact Ln|exact Hg]. }
  destruct HT as (ts & Nd & Nts & Al & Lc & Ln & Hg).
  assert (Hgc : forall q t a x, nth_error ts q = Some t -> nth_error (coords c) a = Some x -> nth_error (coords sup) (q * length (coords c) + a) = Some (vadd x (lattice_vec c t))).
  { intros q t a x Hq Hx. destruct (nth_error (numbers c) a) as [z|] eqn:Ez; [apply (Hg q t a x z Hq Hx Ez)|]. apply nth_error_None in Ez. assert (a < length (coords c))%nat by (apply nth_error_Some; congruence). lia. }
  assert (Hgn : forall q t a z, nth_error ts q = Some t -> nth_error (numbers c) a = Some z -> nth_error (numbers sup) (q * length (coords c) + a) = Some z).
  { intros q t a z Hq Hz. destruct (nth_error (coords c) a) as [x|] eqn:Ex; [apply (Hg q t a x z Hq Ex Hz)|]. apply nth_error_None in Ex. assert (a < length (numbers c))%nat by (apply nth_error_Some; congruence). lia. }
  assert (Hc0 : forall i x, nth_error (coords c) i = Some x -> arr_get (coords sup) (Z.of_nat i + prim_index rcut pbc c * Z.of_nat (length (coords c))) = Ok x) by (intros i x Hx; exact (centre_get rcut pbc c sup i x Hr Hp HS Hx)).
  assert (Nz : (num_atoms c =? 0) = false). { unfold num_atoms. destruct (coords c); [contradiction|]. apply Z.eqb_neq. cbn [length]. lia. }
  assert (Hnd : aligned_pbc pbc c -> Forall (@NoDup Z) lists) by (intros Ha; exact (default_nodup rcut pbc c sup lists Hr Hp Hw Hf Ha E)).
  exists sup, (if sort then sorted else lists), ts. unfold lists_of. rewrite Nz. fold half. split; [destruct sort; assumption|]. split; [destruct sort; [rewrite Hls|]; exact Hl|].
  replace (length (if sort then sorted else lists)) with (length (coords c)) by (destruct sort; [rewrite Hls|]; symmetry; exact Hl).
  split; [exact Hc0|]. split; [exact Nd|]. split; [exact Nts|]. split; [exact Al|]. split; [exact Lc|]. split; [exact Ln|]. split; [exact Hgc|]. split; [exact Hgn|].
  intros i xi l Hx Hli.
  assert (Hb : exists l0, nth_error lists i = Some l0 /\ Permutation l0 l /\ (sort = true -> by_increasing_distance (coords sup) xi l)).
  { destruct sort; [|exists l; split; [exact Hli|]; split; [apply Permutation_refl|discriminate]]. destruct (nth_error lists i) as [l0|] eqn:El; [|apply nth_error_None in El; assert (i < length sorted)%nat by (apply nth_error_Some; congruence); lia].
    destruct (Hs i xi l0 Hx El) as (l' & El' & Pe & Bi). rewrite Hli in El'. injection El' as <-. exists l0. auto. }
  destruct Hb as (l0 & El0 & Pe & Hbi). destruct (Hex i xi Hx) as (l1 & El1 & Hm). rewrite El0 in El1. injection El1 as <-. destruct (Hper i l0 El0) as (_ & Hcomp).
  assert (Pi : forall m, In m l <-> In m l0) by (intros m; split; [apply Permutation_in; apply Permutation_sym; exact Pe|apply Permutation_in; exact Pe]).
  split; [intros m; rewrite Pi; apply Hm|]. split; [intros j t Hnb; destruct (Hcomp j t Hnb) as (m & xj & I & H); exists m, xj; split; [apply Pi; exact I|exact H]|].
  split; [|exact Hbi]. intros Ha. assert (Q := Hnd Ha). rewrite Forall_forall in Q. apply (Permutation_NoDup Pe). apply Q. apply nth_error_In in El0. exact El0.
Qed.

(** *** From supercell indices to atoms and displacements *)
Lemma lattice_inj t t' x : vadd x (lattice_vec c t) = vadd x (lattice_vec c t') -> t = t'.
Proof.
  intros E. destruct Hp as [_ Hdet]. destruct t as [[i j] k], t' as [[i' j'] k']. apply vadd_cancel in E. unfold lattice_vec in E. apply (comb_inj (bA c) (bB c) (bC c) Hdet) in E. destruct E as (E1 & E2 & E3). apply eq_IZR in E1, E2, E3. congruence.
Qed.

Lemma table_ok sort umax : exists sup lists nbrs, lists_of std_sort rcut pbc sort c = Ok (sup, lists) /\ length lists = length (coords c) /\ neighbour_table rcut pbc c sort nbrs /\
  (Forall (fun l => (length l <= umax)%nat) nbrs -> exists info, find_info4mlff sup (prim_index rcut pbc c) lists (Z.of_nat umax) = Ok info /\
    let n := length (coords c) in
    holds c umax nbrs {| r_inum := Z.of_nat n; r_ilist := {| nd_shape := [n]; nd_data := i_ilist info |}; r_numneigh := {| nd_shape := [n]; nd_data := i_numneigh info |};
      r_firstneigh := {| nd_shape := [n; umax]; nd_data := i_firstneigh info |}; r_relative := {| nd_shape := [n; umax; 3%nat]; nd_data := i_relative info |};
      r_types := {| nd_shape := [n]; nd_data := i_types info |}; r_nghost := i_nghost info |}).
Proof.
  destruct (lists_ok sort) as (sup & lists & ts & E & Hl & Hc0 & Nd & Nts & Al & Lc & Ln & Hgc & Hgn & Hm).
  set (n := length (coords c)) in *. assert (Pn : (0 < n)%nat) by (unfold n; destruct (coords c); [contradiction|cbn; lia]).
  set (f := fun m : Z => ((Z.to_nat m mod n)%nat, nth (Z.to_nat m / n)%nat ts (0, 0, 0))).
  assert (Fm : forall m p, 0 <= m -> nth_error (coords sup) (Z.to_nat m) = Some p -> exists x, nth_error ts (Z.to_nat m / n) = Some (snd (f m)) /\ nth_error (coords c) (fst (f m)) = Some x /\ p = vadd x (lattice_vec c (snd (f m))) /\ (Z.to_nat m = Z.to_nat m / n * n + fst (f m))%nat /\ (fst (f m) < n)%nat).
  { intros m p Hm0 Hpm. assert (Lm : (Z.to_nat m < length ts * n)%nat) by (rewrite <- Lc; apply nth_error_Some; congruence). assert (Hq : (Z.to_nat m / n < length ts)%nat) by (apply Nat.div_lt_upper_bound; lia). assert (Ha := Nat.mod_upper_bound (Z.to_nat m) n ltac:(lia)). assert (Dm := Nat.div_mod (Z.to_nat m) n ltac:(lia)).
    unfold f. cbn [fst snd]. assert (Eq := nth_error_nth' ts (0, 0, 0) Hq). destruct (nth_error (coords c) (Z.to_nat m mod n)) as [x|] eqn:Ex; [|apply nth_error_None in Ex; fold n in Ex; lia]. exists x. split; [exact Eq|]. split; [reflexivity|].
    assert (G := Hgc _ _ _ _ Eq Ex). replace (Z.to_nat m / n * n + Z.to_nat m mod n)%nat with (Z.to_nat m) in G by lia. split; [congruence|]. split; lia. }
  exists sup, lists, (map (map f) lists). split; [exact E|]. split; [exact Hl|].
  assert (Li : forall i l, nth_error lists i = Some l -> exists xi, nth_error (coords c) i = Some xi).
  { intros i l Hi. destruct (nth_error (coords c) i) as [xi|] eqn:Ex; [exists xi; reflexivity|]. apply nth_error_None in Ex. assert (i < length lists)%nat by (apply nth_error_Some; congruence). fold n in Ex. lia. }
  assert (Ra : forall i l m, nth_error lists i = Some l -> In m l -> 0 <= m /\ exists p, nth_error (coords sup) (Z.to_nat m) = Some p /\ exists xi, nth_error (coords c) i = Some xi /\ (1 / 1000 < dist2 p xi < rcut * rcut)%R).
  { intros i l m Hi Im. destruct (Li i l Hi) as (xi & Hxi). destruct (Hm i xi l Hxi Hi) as (H1 & _). apply H1 in Im. destruct Im as (H0 & p & Hpp & Hd). split; [exact H0|]. exists p. split; [exact Hpp|]. exists xi. auto. }
  split.
  { split; [rewrite map_length; exact Hl|]. split; [|split].
    - intros i l' Hl' b t. rewrite nth_error_map in Hl'. destruct (nth_error lists i) as [l|] eqn:Hi; [|discriminate]. cbn in Hl'. injection Hl' as <-. destruct (Li i l Hi) as (xi & Hxi). destruct (Hm i xi l Hxi Hi) as (Hin & Hcomp & _). rewrite in_map_iff. split.
      + intros (m & Ef & Im). destruct (Ra i l m Hi Im) as (H0 & p & Hpp & xi' & Hxi' & Hd). rewrite Hxi in Hxi'. injection Hxi' as <-. destruct (Fm m p H0 Hpp) as (x & Et & Ex & -> & _). rewrite Ef in *. cbn [fst snd] in *. exists xi, x. split; [exact Hxi|]. split; [exact Ex|]. split; [|exact Hd]. apply Al. apply nth_error_In in Et. exact Et.
      + intros Hnb. destruct (Hcomp b t Hnb) as (m & xj & Im & Eb & Hxj & Hc). exists m. split; [|exact Im]. destruct (Ra i l m Hi Im) as (H0 & _). destruct (Fm m _ H0 Hc) as (x & _ & Ex & Ep & _ & _). assert (Eb' : fst (f m) = b). { unfold f. cbn [fst]. apply Nat2Z.inj. rewrite <- Eb, Nat2Z.inj_mod, Z2Nat.id by exact H0. reflexivity. }
        rewrite Eb' in Ex. rewrite Hxj in Ex. injection Ex as <-. apply lattice_inj in Ep. rewrite (surjective_pairing (f m)), Eb', <- Ep. reflexivity.
    - intros Ha. apply Forall_forall. intros l' Hl'. apply in_map_iff in Hl'. destruct Hl' as (l & <- & Il). apply In_nth_error in Il. destruct Il as (i & Hi). destruct (Li i l Hi) as (xi & Hxi). destruct (Hm i xi l Hxi Hi) as (_ & _ & Hnd & _). specialize (Hnd Ha).
      assert (Inj : forall m m', In m l -> In m' l -> f m = f m' -> m = m').
      { intros m m' Im Im' Ef. destruct (Ra i l m Hi Im) as (H0 & p & Hpp & _), (Ra i l m' Hi Im') as (H0' & p' & Hpp' & _). destruct (Fm m p H0 Hpp) as (x & Et & _ & _ & Em & _), (Fm m' p' H0' Hpp') as (x' & Et' & _ & _ & Em' & _). rewrite Ef in Et, Em. rewrite <- Et' in Et. assert (Hq : (Z.to_nat m / n = Z.to_nat m' / n)%nat). { apply (proj1 (NoDup_nth_error ts) Nd); [apply nth_error_Some; congruence|exact Et]. } rewrite Hq in Em. lia. }
      clear - Hnd Inj. induction Hnd as [|m l Nm Nl IH]; [constructor|]. cbn [map]. constructor; [|apply IH; intros a b Ia Ib; apply Inj; right; assumption]. intros H. apply in_map_iff in H. destruct H as (m' & Ef & Im'). apply Nm. rewrite <- (Inj m' m (or_intror Im') (or_introl eq_refl) Ef). exact Im'.
    - intros Hst i l' j k b t b' t' d d' Hl' Hjk Hj Hk Hd Hd'. rewrite nth_error_map in Hl'. destruct (nth_error lists i) as [l|] eqn:Hi; [|discriminate]. cbn in Hl'. injection Hl' as <-. destruct (Li i l Hi) as (xi & Hxi). destruct (Hm i xi l Hxi Hi) as (_ & _ & _ & Hby). specialize (Hby Hst).
      rewrite nth_error_map in Hj, Hk. destruct (nth_error l j) as [m|] eqn:Emj; [|discriminate]. destruct (nth_error l k) as [m'|] eqn:Emk; [|discriminate]. cbn in Hj, Hk. assert (Ef : f m = (b, t)) by congruence. assert (Ef' : f m' = (b', t')) by congruence.
      destruct (Ra i l m Hi (nth_error_In _ _ Emj)) as (H0 & p & Hpp & _). destruct (Ra i l m' Hi (nth_error_In _ _ Emk)) as (H0' & p' & Hpp' & _). destruct (Fm m p H0 Hpp) as (x & _ & Ex & Ep & _). destruct (Fm m' p' H0' Hpp') as (x' & _ & Ex' & Ep' & _). rewrite Ef in Ex, Ep. rewrite Ef' in Ex', Ep'. cbn [fst snd] in *.
      destruct Hd as (ui & ub & Eui & Eub & ->). destruct Hd' as (ui' & ub' & Eui' & Eub' & ->). assert (ui = xi) by congruence. assert (ui' = xi) by congruence. assert (ub = x) by congruence. assert (ub' = x') by congruence. subst ui ui' ub ub'. rewrite <- Ep, <- Ep'. change (norm2 (vsub p xi)) with (dist2 p xi). change (norm2 (vsub p' xi)) with (dist2 p' xi).
      apply (Hby j k m m' p p' Hjk Emj Emk); apply arr_get_nth; auto. }
  intros Hfit. destruct (find_info_coord sup (prim_index rcut pbc c) lists umax (coords c)) as (info & EI & I1 & I2 & I3 & I4 & _ & _ & Hs).
  - rewrite Hl. reflexivity.
  - rewrite Hl, Ln, Lc. fold n. destruct ts; [contradiction|]. cbn [length]. lia.
  - exact Hc0.
  - apply Forall_forall. intros l Il. apply In_nth_error in Il. destruct Il as (i & Hi). apply Forall_forall. intros m Im. destruct (Ra i l m Hi Im) as (H0 & p & Hpp & _). assert (Z.to_nat m < length (coords sup))%nat by (apply nth_error_Some; congruence). lia.
  - apply Forall_forall. intros l Il. rewrite Forall_forall in Hfit. specialize (Hfit (map f l) (in_map _ _ _ Il)). rewrite map_length in Hfit. exact Hfit.
  - exists info. split; [exact EI|]. cbv zeta. split; [reflexivity|]. split; [exact I2|]. cbn [r_types r_ilist r_numneigh r_firstneigh r_relative]. fold n. split.
    + intros i z Hz. assert (Hi : (i < n)%nat). { assert (i < length (numbers c))%nat by (apply nth_error_Some; congruence). destruct Hp as [Hpn _]. fold n in Hpn. lia. } split; [reflexivity|]. split; [exact Hi|]. cbn [nd_data]. rewrite I4, Hl. rewrite <- (firstn_skipn n (numbers sup)) in Hgn. destruct ts as [|t0 ts']; [contradiction|]. assert (G := Hgn 0%nat t0 i z eq_refl Hz). cbn [Nat.mul Nat.add] in G. rewrite nth_error_app1 in G; [exact G|]. rewrite firstn_length, Ln, Lc. fold n. cbn [length]. lia.
    + intros i l' Hl'. rewrite nth_error_map in Hl'. destruct (nth_error lists i) as [l|] eqn:Hi; [|discriminate]. cbn in Hl'. injection Hl' as <-. destruct (Li i l Hi) as (xi & Hxi). assert (Hin : (i < n)%nat) by (apply nth_error_Some; fold n; congruence).
      split; [split; [reflexivity|]; split; [exact Hin|]; cbn [nd_data]; rewrite I1, nth_error_map, Hl; rewrite (nth_error_nth' (seq 0 n) 0%nat) by (rewrite seq_length; exact Hin); rewrite seq_nth by exact Hin; reflexivity|].
      split; [split; [reflexivity|]; split; [exact Hin|]; cbn [nd_data]; rewrite I3, nth_error_map, Hi, map_length; reflexivity|].
      intros j Hj. specialize (Hs i l xi j Hi Hxi Hj). rewrite nth_error_map. destruct (nth_error l j) as [m|] eqn:Emj; cbn [option_map].
      * destruct Hs as (H1 & q & Hq & H2). apply arr_get_nth in Hq. destruct Hq as (H0 & Hq). destruct (Fm m q H0 Hq) as (x & _ & Ex & Ep & _). destruct (f m) as [b t] eqn:Ef. cbn [fst snd] in Ex, Ep. split.
        { split; [reflexivity|]. split; [exact Hin|]. split; [exact Hj|]. cbn [nd_data]. rewrite H1, Hl. f_equal. fold n. assert (Eb : b = (Z.to_nat m mod n)%nat) by (unfold f in Ef; congruence). rewrite Eb, Nat2Z.inj_mod, Z2Nat.id by exact H0. reflexivity. }
        exists (vsub q xi). split; [exists xi, x; split; [exact Hxi|]; split; [exact Ex|]; rewrite Ep; reflexivity|]. split; [reflexivity|]. split; [exact Hin|]. split; [exact Hj|]. cbn [nd_data].
        assert (K0 := H2 0%nat ltac:(lia)). rewrite Nat.add_0_r in K0. exact (conj K0 (conj (H2 1%nat ltac:(lia)) (H2 2%nat ltac:(lia)))).
      * destruct Hs as (H1 & H2). split; [split; [reflexivity|]; split; [exact Hin|]; split; [exact Hj|exact H1]|]. split; [reflexivity|]. split; [exact Hin|]. split; [exact Hj|]. cbn [nd_data].
        assert (K0 := H2 0%nat ltac:(lia)). rewrite Nat.add_0_r in K0. exact (conj K0 (conj (H2 1%nat ltac:(lia)) (H2 2%nat ltac:(lia)))).
Qed.
End Lists.
