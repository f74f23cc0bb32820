From Verif Require Import Vec NbModel StructProofs.
From Coq Require Import Sorting.Permutation.
Open Scope Z_scope.

(** * Integer ranges *)
Lemma zrange_in lo hi x : In x (zrange lo hi) <-> lo <= x <= hi.
Proof.
  unfold zrange. rewrite in_map_iff. split.
  - intros [k [<- H]]. apply in_seq in H. lia.
  - intros H. exists (Z.to_nat (x - lo)). split; [lia|]. apply in_seq. lia.
Qed.
Lemma zrange_nodup lo hi : NoDup (zrange lo hi).
Proof. unfold zrange. apply FinFun.Injective_map_NoDup; [|apply seq_NoDup]. intros a b H. lia. Qed.
Lemma zrange_length lo hi : length (zrange lo hi) = Z.to_nat (hi - lo + 1).
Proof. unfold zrange. rewrite map_length, seq_length. reflexivity. Qed.
Lemma zrange_nth lo hi k : (k < Z.to_nat (hi - lo + 1))%nat -> nth_error (zrange lo hi) k = Some (lo + Z.of_nat k).
Proof.
  intros H. unfold zrange. rewrite nth_error_map.
  rewrite (nth_error_nth' _ 0%nat) by (rewrite seq_length; exact H). cbn. rewrite seq_nth by exact H. reflexivity.
Qed.

(** * Ranges of copies *)
Lemma scale_range_spec s : 0 < s ->
  snd (scale_range s) - fst (scale_range s) + 1 = s /\ fst (scale_range s) <= 0 <= snd (scale_range s) /\
  (Z.Odd s -> fst (scale_range s) = - snd (scale_range s)) /\
  (Z.Even s -> fst (scale_range s) = - snd (scale_range s) + 1).
Proof.
  intros Hs. unfold scale_range. rewrite (Z.rem_mod_nonneg s 2) by lia.
  destruct (Z.eqb_spec (s mod 2) 0) as [E|E]; cbn [fst snd].
  - rewrite Z.quot_opp_l by lia. rewrite Z.quot_div_nonneg by lia.
    pose proof (Z.div_mod s 2). repeat split; try lia; intros [k Hk]; lia.
  - rewrite Z.quot_opp_l by lia. rewrite !Z.quot_div_nonneg by lia.
    pose proof (Z.div_mod s 2). pose proof (Z.mod_pos_bound s 2). pose proof (Z.div_mod (s - 1) 2). pose proof (Z.mod_pos_bound (s - 1) 2).
    repeat split; try lia; intros [k Hk]; lia.
Qed.

Lemma shifts3_grid s0 s1 s2 : shifts3 s0 s1 s2 =
  grid3 (zrange (fst (scale_range s0)) (snd (scale_range s0)))
        (zrange (fst (scale_range s1)) (snd (scale_range s1)))
        (zrange (fst (scale_range s2)) (snd (scale_range s2))).
Proof. reflexivity. Qed.

Lemma shifts3_in s0 s1 s2 i j k : In (i, j, k) (shifts3 s0 s1 s2) <->
  fst (scale_range s0) <= i <= snd (scale_range s0) /\
  fst (scale_range s1) <= j <= snd (scale_range s1) /\
  fst (scale_range s2) <= k <= snd (scale_range s2).
Proof. rewrite shifts3_grid, grid3_in, !zrange_in. reflexivity. Qed.

Lemma shifts3_nodup s0 s1 s2 : NoDup (shifts3 s0 s1 s2).
Proof. rewrite shifts3_grid. apply grid3_nodup; apply zrange_nodup. Qed.

Lemma shifts3_length s0 s1 s2 : 0 < s0 -> 0 < s1 -> 0 < s2 -> Z.of_nat (length (shifts3 s0 s1 s2)) = s0 * s1 * s2.
Proof.
  intros H0 H1 H2. rewrite shifts3_grid, grid3_length, !zrange_length.
  destruct (scale_range_spec s0 H0) as [-> _]. destruct (scale_range_spec s1 H1) as [-> _]. destruct (scale_range_spec s2 H2) as [-> _].
  rewrite !Nat2Z.inj_mul, !Z2Nat.id by lia. ring.
Qed.

(** The copies in order. *)
Definition copies (c : cell) (ts : list (Z * Z * Z)) : list vec :=
  flat_map (fun t => map (shift_by (bA c) (bB c) (bC c) t) (coords c)) ts.

Lemma copies_length c ts : length (copies c ts) = (length ts * length (coords c))%nat.
Proof. unfold copies. apply flat_map_const_length. intros. apply map_length. Qed.

Lemma make_supercell_ok s0 s1 s2 c : 0 < s0 -> 0 < s1 -> 0 < s2 -> length (numbers c) = length (coords c) ->
  make_supercell s0 s1 s2 c =
  Ok {| bA := vscale (IZR s0) (bA c); bB := vscale (IZR s1) (bB c); bC := vscale (IZR s2) (bC c);
        numbers := flat_map (fun _ => numbers c) (shifts3 s0 s1 s2); coords := copies c (shifts3 s0 s1 s2);
        origin := comb (bA c) (bB c) (bC c) (IZR (fst (scale_range s0)))
                         (IZR (fst (scale_range s1))) (IZR (fst (scale_range s2))) |}.
Proof.
  intros H0 H1 H2 Hn. unfold make_supercell. fold (copies c (shifts3 s0 s1 s2)).
  pose proof (shifts3_length s0 s1 s2 H0 H1 H2) as HL.
  assert (E : concat (repeat (numbers c) (Z.to_nat (s0 * s1 * s2))) = flat_map (fun _ => numbers c) (shifts3 s0 s1 s2)).
  { rewrite <- HL, Nat2Z.id. generalize (shifts3 s0 s1 s2). clear. induction l as [|t r IH]; [reflexivity|]. cbn. rewrite IH. reflexivity. }
  rewrite E. rewrite copies_length. rewrite (flat_map_const_length (fun _ : Z * Z * Z => numbers c) (length (numbers c))) by reflexivity.
  rewrite Hn. unfold num_atoms.
  assert (Z.of_nat (length (shifts3 s0 s1 s2) * length (coords c)) =? Z.of_nat (length (coords c)) * s0 * s1 * s2 = true) as ->.
  { apply Z.eqb_eq. rewrite Nat2Z.inj_mul, HL. ring. }
  reflexivity.
Qed.

Lemma flat_map_nth {A B} (f : A -> list B) n l q r x :
  (forall a, length (f a) = n) -> nth_error l q = Some x -> (r < n)%nat ->
  nth_error (flat_map f l) (q * n + r) = nth_error (f x) r.
Proof.
  intros Hf. revert q; induction l as [|a l IH]; intros q Hq Hr; [destruct q; discriminate|].
  cbn [flat_map]. destruct q as [|q]; cbn in Hq.
  - injection Hq as ->. rewrite nth_error_app1 by (rewrite Hf; lia). reflexivity.
  - rewrite nth_error_app2 by (rewrite Hf; lia). rewrite Hf.
    replace (S q * n + r - n)%nat with (q * n + r)%nat by lia. apply IH; assumption.
Qed.

Lemma flat_map_nth_inv {A B} (f : A -> list B) n l m y : (forall a, length (f a) = n) ->
  nth_error (flat_map f l) m = Some y ->
  exists x, (0 < n)%nat /\ nth_error l (m / n) = Some x /\ nth_error (f x) (m mod n) = Some y.
Proof.
  intros Hf H. assert (Hlen : (m < length l * n)%nat) by (rewrite <- (flat_map_const_length f n l Hf); apply nth_error_Some; congruence).
  assert (Hn : (0 < n)%nat) by (destruct n; [rewrite Nat.mul_0_r in Hlen|]; lia).
  assert (Hq : (m / n < length l)%nat) by (apply Nat.div_lt_upper_bound; lia).
  destruct (nth_error l (m / n)) as [x|] eqn:E; [|apply nth_error_None in E; lia].
  exists x. split; [exact Hn|]. split; [reflexivity|].
  rewrite <- (flat_map_nth f n l (m / n) (m mod n) x Hf E) by (apply Nat.mod_upper_bound; lia).
  rewrite Nat.mul_comm, <- Nat.div_mod by lia. exact H.
Qed.

(** Where the unshifted copy is. *)
Lemma grid3_nth l0 l1 l2 i j k a b c :
  nth_error l0 i = Some a -> nth_error l1 j = Some b -> nth_error l2 k = Some c ->
  nth_error (grid3 l0 l1 l2) (i * (length l1 * length l2) + (j * length l2 + k)) = Some (a, b, c).
Proof.
  intros Ha Hb Hc. unfold grid3.
  assert (Hj : (j < length l1)%nat) by (apply nth_error_Some; congruence).
  assert (Hk : (k < length l2)%nat) by (apply nth_error_Some; congruence).
  rewrite (flat_map_nth _ (length l1 * length l2) l0 i (j * length l2 + k) a).
  - rewrite (flat_map_nth _ (length l2) l1 j k b); [|intros; apply map_length|exact Hb|exact Hk].
    rewrite nth_error_map, Hc. reflexivity.
  - intros x. apply flat_map_const_length. intros. apply map_length.
  - exact Ha.
  - nia.
Qed.

Lemma prim_cell_idx1_odd s : 0 < s -> Z.Odd s -> 2 * prim_cell_idx1 s + 1 = s /\ prim_cell_idx1 s = - fst (scale_range s).
Proof.
  intros Hs [k Hk]. unfold prim_cell_idx1, scale_range. rewrite (Z.rem_mod_nonneg s 2) by lia.
  assert (s mod 2 = 1) as E by (rewrite Hk, Z.add_comm, Z.mul_comm, Z.mod_add by lia; reflexivity).
  rewrite E. cbn [Z.eqb negb fst]. rewrite Z.quot_opp_l by lia. rewrite !Z.quot_div_nonneg by lia.
  replace (s - 1) with (k * 2) by lia. rewrite Z.div_mul by lia. lia.
Qed.

Lemma prim_cell_is_zero s0 s1 s2 : 0 < s0 -> 0 < s1 -> 0 < s2 -> Z.Odd s0 -> Z.Odd s1 -> Z.Odd s2 ->
  0 <= prim_cell_idx s0 s1 s2 /\ nth_error (shifts3 s0 s1 s2) (Z.to_nat (prim_cell_idx s0 s1 s2)) = Some (0, 0, 0).
Proof.
  intros P0 P1 P2 O0 O1 O2.
  destruct (prim_cell_idx1_odd s0 P0 O0) as [I0 J0]. destruct (prim_cell_idx1_odd s1 P1 O1) as [I1 J1]. destruct (prim_cell_idx1_odd s2 P2 O2) as [I2 J2].
  destruct (scale_range_spec s0 P0) as [L0 _]. destruct (scale_range_spec s1 P1) as [L1 _]. destruct (scale_range_spec s2 P2) as [L2 _].
  unfold prim_cell_idx. set (a := prim_cell_idx1 s0) in *. set (b := prim_cell_idx1 s1) in *. set (c := prim_cell_idx1 s2) in *.
  assert (N : a + b * s0 + c * s0 * s1 = a * (s1 * s2) + (b * s2 + c)) by nia.
  assert (Ha : 0 <= a) by lia. assert (Hb : 0 <= b) by lia. assert (Hc : 0 <= c) by lia. clear - N Ha Hb Hc I0 I1 I2 J0 J1 J2 L0 L1 L2 P0 P1 P2.
  assert (Hbs : 0 <= b * s2) by (apply Z.mul_nonneg_nonneg; lia).
  assert (Hss : 0 <= s1 * s2) by (apply Z.mul_nonneg_nonneg; lia).
  assert (Has : 0 <= a * (s1 * s2)) by (apply Z.mul_nonneg_nonneg; lia).
  rewrite N. split; [lia|].
  pose proof (grid3_nth (zrange (fst (scale_range s0)) (snd (scale_range s0)))
    (zrange (fst (scale_range s1)) (snd (scale_range s1))) (zrange (fst (scale_range s2)) (snd (scale_range s2)))
    (Z.to_nat a) (Z.to_nat b) (Z.to_nat c) 0 0 0) as G.
  rewrite !zrange_length, L1, L2 in G. rewrite shifts3_grid.
  rewrite <- !Z2Nat.inj_mul, <- !Z2Nat.inj_add in G by lia.
  apply G; rewrite zrange_nth by (rewrite ?L0, ?L1, ?L2; lia); f_equal; lia.
Qed.

(** * Arrays *)
Lemma arr_get_ok {A} (l : list A) i : 0 <= i < Z.of_nat (length l) -> exists x, arr_get l i = Ok x.
Proof.
  intros H. unfold arr_get. destruct (Z.ltb_spec i 0); [lia|]. unfold get.
  destruct (nth_error l (Z.to_nat i)) eqn:E; [eauto|]. apply nth_error_None in E. lia.
Qed.
Lemma arr_get_range {A} (l : list A) i x : arr_get l i = Ok x -> 0 <= i < Z.of_nat (length l).
Proof.
  unfold arr_get, get. destruct (Z.ltb_spec i 0); [discriminate|].
  destruct (nth_error l (Z.to_nat i)) eqn:E; [|discriminate]. intros _.
  assert (Z.to_nat i < length l)%nat by (apply nth_error_Some; congruence). lia.
Qed.
Lemma arr_get_bad {A} (l : list A) i : ~ (0 <= i < Z.of_nat (length l)) -> arr_get l i = Err IndexError.
Proof.
  intros H. unfold arr_get, get. destruct (Z.ltb_spec i 0); [reflexivity|].
  destruct (nth_error l (Z.to_nat i)) eqn:E; [|reflexivity].
  assert (Z.to_nat i < length l)%nat by (apply nth_error_Some; congruence). lia.
Qed.
Lemma arr_get_nat {A} (l : list A) (i : nat) : arr_get l (Z.of_nat i) = get l i.
Proof. unfold arr_get. destruct (Z.ltb_spec (Z.of_nat i) 0); [lia|]. rewrite Nat2Z.id. reflexivity. Qed.

Lemma set_nth_spec {A} (l : list A) i x : (i < length l)%nat ->
  exists l', set_nth l i x = Some l' /\ length l' = length l /\
    nth_error l' i = Some x /\ forall j, j <> i -> nth_error l' j = nth_error l j.
Proof.
  revert i; induction l as [|y r IH]; intros i H; [cbn in H; lia|]. destruct i as [|i]; cbn [set_nth].
  - eexists. split; [reflexivity|]. split; [reflexivity|]. split; [reflexivity|]. intros [|j] Hj; [lia|reflexivity].
  - destruct (IH i) as [l' [H1 [H2 [H3 H4]]]]; [cbn in H; lia|]. rewrite H1. eexists. split; [reflexivity|].
    split; [cbn; lia|]. split; [exact H3|]. intros [|j] Hj; [reflexivity|]. apply H4. lia.
Qed.

Lemma arr_set_spec {A} (l : list A) i x : 0 <= i < Z.of_nat (length l) ->
  exists l', arr_set l i x = Ok l' /\ length l' = length l /\
    arr_get l' i = Ok x /\ forall j, j <> i -> arr_get l' j = arr_get l j.
Proof.
  intros H. unfold arr_set, arr_get. destruct (Z.ltb_spec i 0); [lia|].
  destruct (set_nth_spec l (Z.to_nat i) x) as [l' [H1 [H2 [H3 H4]]]]; [lia|].
  rewrite H1. eexists. split; [reflexivity|]. split; [exact H2|]. split; [unfold get; rewrite H3; reflexivity|].
  intros j Hj. destruct (Z.ltb_spec j 0); [reflexivity|]. unfold get. rewrite H4 by lia. reflexivity.
Qed.

(** * Chains *)
Inductive chain (nexts : list Z) : Z -> list Z -> Prop :=
| chain_nil : chain nexts (-1) []
| chain_cons a a' l : a <> -1 -> arr_get nexts a = Ok a' -> chain nexts a' l -> chain nexts a (a :: l).

Lemma chain_walk nexts a l : chain nexts a l -> forall fuel, (length l < fuel)%nat -> walk fuel nexts a = Ok l.
Proof.
  induction 1 as [|a a' l Ha Hg Hc IH]; intros fuel Hf; (destruct fuel as [|fuel]; [lia|]); cbn [walk].
  - reflexivity.
  - destruct (Z.eqb_spec a (-1)); [contradiction|]. rewrite Hg. cbn [bind].
    rewrite IH by (cbn in Hf; lia). reflexivity.
Qed.

Lemma chain_ext nexts nexts' a l : chain nexts a l -> Forall (fun x => arr_get nexts' x = arr_get nexts x) l -> chain nexts' a l.
Proof.
  induction 1 as [|a a' l Ha Hg Hc IH]; intros Hf; [constructor|].
  apply Forall_cons_iff in Hf as [Hx Hf]. econstructor; [exact Ha|rewrite Hx; exact Hg|apply IH, Hf].
Qed.

(** Indices (from [i] on) of the atoms in bin [b]. *)
Fixpoint members (b : Z) (i : Z) (bins : list Z) : list Z :=
  match bins with
  | [] => []
  | x :: r => if x =? b then i :: members b (i + 1) r else members b (i + 1) r
  end.

Lemma members_in b i bins j : In j (members b i bins) <-> i <= j /\ nth_error bins (Z.to_nat (j - i)) = Some b.
Proof.
  revert i; induction bins as [|x r IH]; intros i; cbn [members].
  - split; [intros []|]. intros [_ H]. destruct (Z.to_nat (j - i)); discriminate.
  - assert (Hr : In j (members b (i + 1) r) <-> i + 1 <= j /\ nth_error (x :: r) (Z.to_nat (j - i)) = Some b).
    { rewrite IH. split; intros [H1 H2]; (split; [lia|]); replace (Z.to_nat (j - i)) with (S (Z.to_nat (j - (i + 1)))) in * by lia; exact H2. }
    destruct (Z.eqb_spec x b) as [E|E].
    + cbn [In]. rewrite Hr. split.
      * intros [<-|[H1 H2]]; [split; [lia|]; rewrite Z.sub_diag; cbn; congruence|split; [lia|exact H2]].
      * intros [H1 H2]. destruct (Z.eq_dec i j); [left; assumption|right; split; [lia|exact H2]].
    + rewrite Hr. split; intros [H1 H2]; [split; [lia|exact H2]|].
      destruct (Z.eq_dec i j) as [->|]; [rewrite Z.sub_diag in H2; cbn in H2; congruence|split; [lia|exact H2]].
Qed.

Lemma members_nodup b i bins : NoDup (members b i bins).
Proof.
  revert i; induction bins as [|x r IH]; intros i; cbn [members]; [constructor|].
  destruct (x =? b); [|apply IH]. constructor; [|apply IH]. rewrite members_in. lia.
Qed.

Lemma members_length b i bins : (length (members b i bins) <= length bins)%nat.
Proof. revert i; induction bins as [|x r IH]; intros i; cbn; [lia|]. specialize (IH (i + 1)). destruct (x =? b); cbn; lia. Qed.

Lemma link_spec nb bins : forall ii heads nexts L,
  0 <= ii -> ii + Z.of_nat (length bins) <= Z.of_nat (length nexts) -> length heads = nb ->
  (forall b, 0 <= b < Z.of_nat nb -> exists h, arr_get heads b = Ok h /\ chain nexts h (L b) /\ Forall (fun x => 0 <= x < ii) (L b)) ->
  Forall (fun b => 0 <= b < Z.of_nat nb) bins ->
  exists heads' nexts', link ii bins heads nexts = Ok (heads', nexts') /\ length heads' = nb /\ length nexts' = length nexts /\
    forall b, 0 <= b < Z.of_nat nb -> exists h, arr_get heads' b = Ok h /\ chain nexts' h (rev (members b ii bins) ++ L b).
Proof.
  induction bins as [|b0 r IH]; intros ii heads nexts L Hii Hlen Hh HI Hb; cbn [link].
  - exists heads, nexts. split; [reflexivity|]. split; [exact Hh|]. split; [reflexivity|].
    intros b Hr. destruct (HI b Hr) as [h [H1 [H2 _]]]. cbn. eauto.
  - apply Forall_cons_iff in Hb as [Hb0 Hb]. cbn [length] in Hlen.
    destruct (HI b0 Hb0) as [h0 [G0 [C0 F0]]]. rewrite G0. cbn [bind].
    destruct (arr_set_spec nexts ii h0) as [nexts1 [S1 [LN [GN GN']]]]; [lia|]. rewrite S1. cbn [bind].
    destruct (arr_set_spec heads b0 ii) as [heads1 [S2 [LH [GH GH']]]]; [lia|]. rewrite S2. cbn [bind].
    destruct (IH (ii + 1) heads1 nexts1 (fun b => if b0 =? b then ii :: L b else L b)) as [heads2 [nexts2 [E [LH2 [LN2 HI2]]]]].
    + lia.
    + lia.
    + lia.
    + intros b Hr. destruct (HI b Hr) as [h [H1 [H2 H3]]].
      assert (Hext : chain nexts1 h (L b)).
      { apply (chain_ext nexts); [exact H2|]. eapply Forall_impl; [|exact H3]. cbn. intros x Hx. apply GN'. lia. }
      destruct (Z.eqb_spec b0 b) as [<-|Hne].
      * exists ii. split; [exact GH|]. rewrite G0 in H1. injection H1 as <-. split.
        -- econstructor; [lia|exact GN|exact Hext].
        -- constructor; [lia|]. eapply Forall_impl; [|exact H3]. cbn. lia.
      * exists h. split; [rewrite GH' by congruence; exact H1|]. split; [exact Hext|]. eapply Forall_impl; [|exact H3]. cbn. lia.
    + exact Hb.
    + exists heads2, nexts2. split; [exact E|]. split; [exact LH2|]. split; [lia|]. intros b Hr.
      destruct (HI2 b Hr) as [h [H1 H2]]. exists h. split; [exact H1|]. cbn [members].
      destruct (b0 =? b); [|exact H2]. cbn [rev]. rewrite <- app_assoc. exact H2.
Qed.

Lemma repeat_get (n : nat) (x : Z) b : 0 <= b < Z.of_nat n -> arr_get (repeat x n) b = Ok x.
Proof.
  intros H. unfold arr_get, get. destruct (Z.ltb_spec b 0); [lia|].
  destruct (nth_error (repeat x n) (Z.to_nat b)) eqn:E.
  - apply nth_error_In, repeat_spec in E. congruence.
  - apply nth_error_None in E. rewrite repeat_length in E. lia.
Qed.

Lemma build_spec nbins bins : Forall (fun b => 0 <= b < nbins) bins ->
  exists heads nexts, build_lists nbins bins = Ok (heads, nexts) /\ length nexts = length bins /\
    forall b, 0 <= b < nbins -> exists h, arr_get heads b = Ok h /\ chain nexts h (rev (members b 0 bins)).
Proof.
  intros Hb. destruct bins as [|b0 r].
  - exists (repeat (-1) (Z.to_nat nbins)), []. split; [reflexivity|]. split; [reflexivity|].
    intros b Hr. exists (-1). split; [apply repeat_get; lia|constructor].
  - assert (Hn : 0 < nbins) by (apply Forall_cons_iff in Hb as [H _]; lia).
    unfold build_lists. destruct (link_spec (Z.to_nat nbins) (b0 :: r) 0 (repeat (-1) (Z.to_nat nbins)) (repeat (-1) (length (b0 :: r))) (fun _ => []))
      as [heads [nexts [E [LH [LN HI]]]]].
    + lia.
    + rewrite repeat_length. lia.
    + apply repeat_length.
    + intros b Hr. exists (-1). split; [apply repeat_get; lia|]. split; constructor.
    + eapply Forall_impl; [|exact Hb]. cbn. lia.
    + exists heads, nexts. split; [exact E|]. split; [rewrite LN; apply repeat_length|]. intros b Hr.
      destruct (HI b) as [h [H1 H2]]; [lia|]. exists h. rewrite app_nil_r in H2. auto.
Qed.

Lemma link_bad bins : forall ii heads nexts,
  0 <= ii -> ii + Z.of_nat (length bins) <= Z.of_nat (length nexts) ->
  ~ Forall (fun b => 0 <= b < Z.of_nat (length heads)) bins -> link ii bins heads nexts = Err IndexError.
Proof.
  induction bins as [|b r IH]; intros ii heads nexts Hii Hlen Hb; [exfalso; apply Hb; constructor|]. cbn [link length] in *.
  assert (D : (0 <= b < Z.of_nat (length heads)) \/ ~ (0 <= b < Z.of_nat (length heads))) by lia.
  destruct D as [Hr|Hr].
  - destruct (arr_get_ok heads b Hr) as [h ->]. cbn [bind].
    destruct (arr_set_spec nexts ii h) as [nexts1 [S1 [LN _]]]; [lia|]. rewrite S1. cbn [bind].
    destruct (arr_set_spec heads b ii) as [heads1 [S2 [LH _]]]; [lia|]. rewrite S2. cbn [bind].
    apply IH; [lia|lia|]. rewrite LH. intros H. apply Hb. constructor; assumption.
  - rewrite arr_get_bad by exact Hr. reflexivity.
Qed.

Lemma build_bad nbins bins : ~ Forall (fun b => 0 <= b < nbins) bins -> build_lists nbins bins = Err IndexError.
Proof.
  intros H. unfold build_lists. apply link_bad; rewrite ?repeat_length; try lia.
  intros Hf. apply H. eapply Forall_impl; [|exact Hf]. cbn. lia.
Qed.

(** Following every chain of a built list. *)
Lemma chain_correct nbins bins heads nexts b : build_lists nbins bins = Ok (heads, nexts) -> 0 <= b < nbins ->
  exists h, arr_get heads b = Ok h /\ walk (S (length nexts)) nexts h = Ok (rev (members b 0 bins)).
Proof.
  intros H Hb. assert (Hf : Forall (fun b => 0 <= b < nbins) bins).
  { apply Forall_forall. intros x Hx. assert (D : (0 <= x < nbins) \/ ~ (0 <= x < nbins)) by lia. destruct D as [D|D]; [exact D|].
    rewrite build_bad in H; [discriminate|]. intros Hf. rewrite Forall_forall in Hf. auto. }
  destruct (build_spec nbins bins Hf) as [heads' [nexts' [E [LN HI]]]]. rewrite E in H. injection H as <- <-.
  destruct (HI b Hb) as [h [H1 H2]]. exists h. split; [exact H1|]. apply chain_walk; [exact H2|].
  rewrite rev_length, LN. pose proof (members_length b 0 bins). lia.
Qed.

(** * Scanning *)
Lemma scan_chain_spec rcut pos centre ch : Forall (fun a => 0 <= a < Z.of_nat (length pos)) ch ->
  scan_chain rcut pos centre ch =
  Ok (filter (fun a => match arr_get pos a with Ok q => in_shell rcut centre q | Err _ => false end) ch).
Proof.
  induction 1 as [|a r Ha Hr IH]; [reflexivity|]. cbn [scan_chain filter].
  destruct (arr_get_ok pos a Ha) as [q Hq]. rewrite Hq. cbn [bind]. rewrite IH. cbn [bind].
  destruct (in_shell rcut centre q); reflexivity.
Qed.

Definition hits (rcut : R) (pos : list vec) (centre : vec) (bins : list Z) (b : Z) : list Z :=
  if b =? -1 then []
  else filter (fun a => match arr_get pos a with Ok q => in_shell rcut centre q | Err _ => false end) (rev (members b 0 bins)).

Lemma scan_bins_spec rcut pos centre nbins bins heads nexts bs :
  build_lists nbins bins = Ok (heads, nexts) -> length bins = length pos ->
  Forall (fun b => b = -1 \/ 0 <= b < nbins) bs ->
  scan_bins rcut pos centre heads nexts bs = Ok (flat_map (hits rcut pos centre bins) bs).
Proof.
  intros HB HL. induction 1 as [|b r Hb Hr IH]; [reflexivity|]. cbn [scan_bins flat_map]. unfold hits at 1.
  destruct (Z.eqb_spec b (-1)) as [->|Hne].
  - cbn [bind]. rewrite IH. reflexivity.
  - destruct Hb as [Hb|Hb]; [contradiction|]. destruct (chain_correct nbins bins heads nexts b HB Hb) as [h [H1 H2]].
    rewrite H1. cbn [bind]. rewrite H2. cbn [bind]. rewrite scan_chain_spec.
    + cbn [bind]. rewrite IH. reflexivity.
    + apply Forall_rev. apply Forall_forall. intros a Ha. apply members_in in Ha as [Ha1 Ha2].
      assert (Z.to_nat (a - 0) < length bins)%nat by (apply nth_error_Some; congruence). lia.
Qed.
