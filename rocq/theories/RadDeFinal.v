(** Programs over objects of mtpMRadial_de.h. *)
From Coq Require Import Permutation Lra.
From Verif Require Import RDeriv HeapProofs RadSpec RadHeap SeModel SeProofs ChebModel ChebProofs RadDeModel RadDeSpec RadDeProofs.
Local Open Scope R_scope.
Local Open Scope list_scope.

Lemma upd_live h b l l' : arr h b l -> live (upd h b l') = live h.
Proof.
  intros E. unfold live, upd. rewrite replace_length. apply filter_ext. intros k. rewrite alive_replace by (now apply arr_lt in E).
  destruct (Nat.eqb_spec k b) as [->|]; auto. symmetry. eapply arr_alive, E.
Qed.
Definition grown (h h' : mem) (k : nat) : Prop := in_use R h' = (in_use R h + k)%nat /\ forall b c, nth_error h b = Some (Some c) -> nth_error h' b = Some (Some c).
Lemma grown_0 h : grown h h 0. Proof. split; auto. Qed.
Lemma grown_trans h1 h2 h3 j k : grown h1 h2 j -> grown h2 h3 k -> grown h1 h3 (j + k).
Proof. intros (A & B) (C & D). split; [lia|auto]. Qed.
Lemma make_ok rc rs m r h : rs < rc -> exists b1 b2 b3 b4 h',
  make_radial rc rs (Z.of_nat m) r h = HOk (obj rc rs m r b1 b2 b3 b4, h') /\ settled rc rs m r b1 b2 b3 b4 h' /\ grown h h' 4.
Proof.
  intros H. unfold make_radial. destruct (Rlt_dec rs rc) as [_|]; [|lra]. unfold four_arrays. destruct (Z.ltb_spec (Z.of_nat m + 1) 0) as [|_]; [lia|].
  replace (Z.to_nat (Z.of_nat m + 1)) with (S m) by lia. rewrite alloc_all_eq. set (b := length h). cbn [seq map nth].
  destruct (fill_new 0 (S m) 4 h) as (h1 & E1 & T1 & A1). fold b in E1, T1, A1. cbn [seq map] in E1, T1, A1.
  change (d_cv _) with (At b). change (d_cd _) with (At (S b)). change (d_rv _) with (At (S (S b))). change (d_rd _) with (At (S (S (S b)))).
  rewrite E1. cbn [hbind]. cbn [repeat] in A1.
  inversion A1 as [|? ? ? ? a1 X1]; subst. inversion X1 as [|? ? ? ? a2 X2]; subst. inversion X2 as [|? ? ? ? a3 X3]; subst. inversion X3 as [|? ? ? ? a4 _]; subst. clear A1 X1 X2 X3.
  change {| d_rcut := rc; d_smooth := rs; d_hmju := Z.of_nat m; d_rji := r; d_cv := At b; d_cd := At (S b); d_rv := At (S (S b)); d_rd := At (S (S (S b))) |} with (obj rc rs m r b (S b) (S (S b)) (S (S (S b)))).
  set (o := obj rc rs m r b (S b) (S (S b)) (S (S (S b)))).
  assert (length (0 :: repeat 0 m) = S m) as L0 by (cbn; now rewrite repeat_length).
  set (h2 := upd h1 b (Tl rc rs r m)). assert (calc_cv o h1 = HOk h2) as -> by (eapply cv_ok; eauto). cbn [hbind].
  assert (arr h2 b (Tl rc rs r m)) as c1 by (eapply upd_arr; eauto).
  assert (arr h2 (S b) (0 :: repeat 0 m)) as c2 by (apply upd_other; [lia|exact a2]).
  assert (arr h2 (S (S b)) (0 :: repeat 0 m)) as c3 by (apply upd_other; [lia|exact a3]).
  assert (arr h2 (S (S (S b))) (0 :: repeat 0 m)) as c4 by (apply upd_other; [lia|exact a4]).
  set (h3 := upd h2 (S b) (Dl rc rs r m)). assert (calc_cd o h2 = HOk h3) as -> by (eapply cd_ok; eauto; lia). cbn [hbind].
  assert (arr h3 b (Tl rc rs r m)) as d1 by (apply upd_other; [lia|exact c1]).
  assert (arr h3 (S b) (Dl rc rs r m)) as d2 by (eapply upd_arr; eauto).
  assert (arr h3 (S (S b)) (0 :: repeat 0 m)) as d3 by (apply upd_other; [lia|exact c3]).
  assert (arr h3 (S (S (S b))) (0 :: repeat 0 m)) as d4 by (apply upd_other; [lia|exact c4]).
  set (h4 := upd h3 (S (S b)) (Vl rc rs r m)). assert (calc_rv o h3 = HOk h4) as -> by (eapply rv_ok; eauto; lia). cbn [hbind].
  assert (arr h4 b (Tl rc rs r m)) as e1 by (apply upd_other; [lia|exact d1]).
  assert (arr h4 (S b) (Dl rc rs r m)) as e2 by (apply upd_other; [lia|exact d2]).
  assert (arr h4 (S (S b)) (Vl rc rs r m)) as e3 by (eapply upd_arr; eauto).
  assert (arr h4 (S (S (S b))) (0 :: repeat 0 m)) as e4 by (apply upd_other; [lia|exact d4]).
  set (h5 := upd h4 (S (S (S b))) (Gl rc rs r m)). assert (calc_rd o h4 = HOk h5) as -> by (eapply rd_ok; eauto; lia). cbn [hbind].
  exists b, (S b), (S (S b)), (S (S (S b))), h5. split; [reflexivity|]. split; [|split].
  - split; [repeat split; lia|]. split; [apply upd_other; [lia|exact e1]|]. split; [apply upd_other; [lia|exact e2]|]. split; [apply upd_other; [lia|exact e3]|]. eapply upd_arr; eauto.
  - rewrite !in_use_live. unfold h5. rewrite (upd_live _ _ _ _ e4). unfold h4. rewrite (upd_live _ _ _ _ d3). unfold h3. rewrite (upd_live _ _ _ _ c2). unfold h2. rewrite (upd_live _ _ _ _ a1).
    destruct (T1 (live h)) as (P & _); [reflexivity|]. rewrite P. cbn [app length]. lia.
  - intros k c Ek. assert (k < b)%nat as Lk by (apply nth_error_Some; congruence). unfold h5, h4, h3, h2, upd. rewrite !nth_replace_other by lia.
    destruct (T1 (live h)) as (_ & F); [reflexivity|]. rewrite F; auto. apply in_live. unfold alive. now rewrite Ek.
Qed.

(** *** Simulation *)
Definition like (h : mem) (v : option known) (o : option radial) : Prop :=
  match v, o with
  | None, None => True
  | Some Blank, Some o => o = no_radial
  | Some (Known rc rs m r), Some o => rs < rc /\ exists b1 b2 b3 b4, o = obj rc rs m r b1 b2 b3 b4 /\ settled rc rs m r b1 b2 b3 b4 h
  | _, _ => False
  end.
Definition alike (vs : knowns) (s : world) : Prop := Forall2 (like (snd s)) vs (fst s).
Lemma like_grown h h' k v o : grown h h' k -> like h v o -> like h' v o.
Proof.
  intros (_ & G). destruct v as [[|rc rs m r]|], o as [o|]; cbn; auto. intros (L & b1 & b2 & b3 & b4 & -> & N & A1 & A2 & A3 & A4). split; auto. exists b1, b2, b3, b4. split; auto.
  unfold RadHeap.arr in *. split; [exact N|]. repeat split; now apply G.
Qed.
Lemma alike_put h vs os x v o : Forall2 (like h) vs os -> like h v o -> Forall2 (like h) (replace vs x v) (replace os x o).
Proof. intros F L. revert x. induction F; intros [|k]; cbn; constructor; auto. Qed.
Lemma alike_nth h vs os x : Forall2 (like h) vs os -> match nth_error vs x, nth_error os x with Some v, Some o => like h v o | None, None => True | _, _ => False end.
Proof. intros F. revert x. induction F as [|? ? ? ? L F IH]; intros [|k]; cbn [nth_error]; [exact I|exact I|exact L|apply IH]. Qed.
Lemma alike_unused vs s x : alike vs s -> unused vs x = true -> vacant R radial s x = HOk tt.
Proof.
  intros F. pose proof (alike_nth _ _ _ x F) as N. unfold unused, vacant. destruct (nth_error vs x) as [[v|]|]; try discriminate. intros _.
  destruct (nth_error (fst s) x) as [[o|]|]; cbn in N; easy.
Qed.
Lemma alike_knows vs s x v : alike vs s -> knows vs x = Some v -> exists o, object R radial s x = HOk o /\ like (snd s) (Some v) (Some o).
Proof.
  intros F. pose proof (alike_nth _ _ _ x F) as N. unfold knows, object. destruct (nth_error vs x) as [[w|]|]; try discriminate. intros [= ->].
  destruct (nth_error (fst s) x) as [[o|]|]; [exists o; auto|destruct v; easy|easy].
Qed.
Lemma step_ok c vs vs' s : alike vs s -> sense c vs = Some vs' -> exists s', act c s = HOk s' /\ alike vs' s' /\ grown (snd s) (snd s') (4 * made [c]).
Proof.
  intros F M. destruct c as [x|x rc rs m r|x y|x y|x p|x]; cbn [sense] in M.
  - destruct (unused vs x) eqn:U; [|discriminate]. injection M as <-. cbn [act]. rewrite (alike_unused _ _ _ F U). cbn [hbind]. eexists. split; [reflexivity|]. split; [|apply grown_0].
    now apply alike_put.
  - destruct (unused vs x) eqn:U; [|discriminate]. destruct (Rlt_dec rs rc) as [H|]; [|discriminate]. destruct (Z.leb_spec 0 m) as [Hm|]; [|discriminate]. injection M as <-. cbn [act].
    rewrite (alike_unused _ _ _ F U). cbn [hbind]. destruct (make_ok rc rs (Z.to_nat m) r (snd s) H) as (b1 & b2 & b3 & b4 & h' & E & St & G). rewrite Z2Nat.id in E by auto. rewrite E. cbn [hbind].
    eexists. split; [reflexivity|]. split; [|exact G]. apply alike_put.
    + unfold alike in F. clear - F G. induction F; constructor; auto. now apply (like_grown _ _ 4 _ _ G).
    + split; auto. exists b1, b2, b3, b4. auto.
  - destruct (unused vs x) eqn:U; [|discriminate]. destruct (knows vs y) as [v|] eqn:K; [|discriminate]. injection M as <-. cbn [act]. rewrite (alike_unused _ _ _ F U).
    destruct (alike_knows _ _ _ _ F K) as (o & E & L). rewrite E. cbn [hbind]. eexists. split; [reflexivity|]. split; [|apply grown_0]. now apply alike_put.
  - destruct (knows vs x) as [v0|] eqn:K0; [|discriminate]. destruct (knows vs y) as [v|] eqn:K; [|discriminate]. injection M as <-. cbn [act].
    destruct (alike_knows _ _ _ _ F K0) as (o0 & E0 & _). destruct (alike_knows _ _ _ _ F K) as (o & E & L). rewrite E0, E. cbn [hbind]. eexists. split; [reflexivity|]. split; [|apply grown_0]. now apply alike_put.
  - destruct (knows vs x) as [[|rc rs m r]|] eqn:K; try discriminate. injection M as <-. cbn [act]. destruct (alike_knows _ _ _ _ F K) as (o & E & L & b1 & b2 & b3 & b4 & -> & St). rewrite E. cbn [hbind].
    rewrite (calc_settled _ _ _ _ _ _ _ _ p _ St). cbn [hbind]. eexists. split; [reflexivity|]. destruct s. split; [exact F|apply grown_0].
  - destruct (knows vs x) as [v|] eqn:K; [|discriminate]. injection M as <-. cbn [act]. destruct (alike_knows _ _ _ _ F K) as (o & E & _). rewrite E. cbn [hbind]. eexists. split; [reflexivity|]. split; [|apply grown_0].
    now apply alike_put.
Qed.
Lemma made_cons c l : made (c :: l) = (made [c] + made l)%nat.
Proof. unfold made. cbn [filter]. destruct c; cbn; auto. Qed.
Lemma acts_ok l : forall vs vs' s, alike vs s -> sense_all l vs = Some vs' -> exists s', acts l s = HOk s' /\ alike vs' s' /\ grown (snd s) (snd s') (4 * made l).
Proof.
  induction l as [|c l IH]; intros vs vs' s F M; cbn [sense_all acts] in *; [injection M as <-; exists s; split; [auto|split; [auto|apply grown_0]]|].
  destruct (sense c vs) as [vs1|] eqn:E; [|discriminate]. destruct (step_ok _ _ _ _ F E) as (s1 & E1 & F1 & G1). rewrite E1. cbn [hbind]. destruct (IH _ _ _ F1 M) as (s2 & E2 & F2 & G2).
  exists s2. split; auto. split; auto. rewrite made_cons. replace (4 * (made [c] + made l))%nat with (4 * made [c] + 4 * made l)%nat by lia. eapply grown_trans; eauto.
Qed.
Lemma alike_empty n : alike (repeat None n) (empty_world n).
Proof. unfold alike, empty_world. cbn. induction n; cbn; constructor; cbn; auto. Qed.
Lemma visible_ok vs s x : alike vs s -> correct T (knows vs x) (visible s x).
Proof.
  intros F. unfold visible. destruct (knows vs x) as [v|] eqn:K.
  - destruct (alike_knows _ _ _ _ F K) as (o & -> & L). cbn [hbind]. destruct v as [|rc rs m r]; cbn [like correct] in *; [now subst|].
    destruct L as (H & b1 & b2 & b3 & b4 & -> & St). rewrite (glance_settled _ _ _ _ _ _ _ _ _ St). do 4 eexists. split; [reflexivity|]. destruct (lens rc rs r m) as (L1 & L2 & L3 & L4). do 4 (split; [assumption|]).
    intros n Hn. unfold Tl, Dl, Vl, Gl. rewrite !nth_seq_map by lia. split; [reflexivity|]. split; [apply T_unit_dl|]. split; [now rewrite fading_eq|now apply product_dl].
  - pose proof (alike_nth _ _ _ x F) as N. unfold knows in K. unfold object. cbn [correct]. destruct (nth_error vs x) as [[w|]|], (nth_error (fst s) x) as [[o|]|]; cbn in N; try easy.
Qed.
Lemma programs_ok : exists V, chebyshev V /\
  forall n l vs, sense_all l (repeat None n) = Some vs ->
  exists s, acts l (empty_world n) = HOk s /\ (forall x, correct V (knows vs x) (visible s x)) /\ in_use R (snd s) = (4 * made l)%nat.
Proof.
  exists T. split; [exact T_cos|]. intros n l vs M. destruct (acts_ok l _ _ _ (alike_empty n) M) as (s & E & F & G). exists s. split; auto. split; [intros x; now apply visible_ok|]. exact (proj1 G).
Qed.
Lemma sense_app l l' vs : sense_all (l ++ l') vs = match sense_all l vs with Some vs' => sense_all l' vs' | None => None end.
Proof. revert vs. induction l as [|c l IH]; intros vs; cbn; auto. destruct (sense c vs); auto. Qed.
Lemma acts_app l l' s : acts (l ++ l') s = hbind (acts l s) (acts l').
Proof. revert s. induction l as [|c l IH]; intros s; cbn; auto. destruct (act c s); cbn; auto. Qed.
Lemma cells_stay n l l' vs : sense_all (l ++ l') (repeat None n) = Some vs ->
  exists s s', acts l (empty_world n) = HOk s /\ acts (l ++ l') (empty_world n) = HOk s' /\ forall b c, nth_error (snd s) b = Some (Some c) -> nth_error (snd s') b = Some (Some c).
Proof.
  intros M. rewrite sense_app in M. destruct (sense_all l (repeat None n)) as [vs1|] eqn:E1; [|discriminate]. destruct (acts_ok l _ _ _ (alike_empty n) E1) as (s & E & F & G).
  destruct (acts_ok l' _ _ _ F M) as (s' & E' & F' & G'). exists s, s'. split; auto. rewrite acts_app, E. split; [exact E'|]. exact (proj2 G').
Qed.

(** *** Refused and failing calls *)
Lemma make_radii rc rs m r h : rc <= rs -> make_radial rc rs m r h = HErr Aborted.
Proof. intros H. unfold make_radial. destruct (Rlt_dec rs rc); [lra|reflexivity]. Qed.
Lemma make_negative rc rs m r h : rs < rc -> (m < 0)%Z -> make_radial rc rs m r h = HErr (if (m =? -1)%Z then OutOfBounds else NullDeref).
Proof.
  intros H Hm. unfold make_radial. destruct (Rlt_dec rs rc) as [_|]; [|lra]. unfold four_arrays. replace (Z.to_nat (m + 1)) with 0%nat by lia.
  assert (forall cell h, by_degree m cell h = hbind (cell 0%nat h) (fun h => hbind (cell 1%nat h) (fun h => hfold (fun h ii => cell ii h) (seq 2 0) h))) as BD.
  { intros cell h0. unfold by_degree. destruct (Z.eqb_spec m 0); [lia|]. destruct (Z.eqb_spec m 1); [lia|]. replace (Z.to_nat (m + 1) - 2)%nat with 0%nat by lia. reflexivity. }
  destruct (Z.eqb_spec m (-1)) as [->|N].
  - change (-1 + 1 <? 0)%Z with false. cbv iota. rewrite alloc_all_eq. set (b := length h). cbn [seq map nth repeat]. unfold fill. cbn [seq hfold hbind].
    unfold calc_cv. cbn [d_hmju d_cv]. rewrite BD. unfold put_cell, write, cells_at. rewrite nth_error_app2 by lia. replace (b - length h)%nat with 0%nat by (unfold b; lia). reflexivity.
  - destruct (Z.ltb_spec (m + 1) 0) as [_|]; [|lia]. unfold fill. cbn [seq hfold hbind nth]. unfold calc_cv. cbn [d_hmju d_cv]. rewrite BD. reflexivity.
Qed.
Lemma blank_calc p h : calc p no_radial h = HErr NullDeref.
Proof. destruct p; reflexivity. Qed.

(** *** Size of the values *)
Lemma bounded V rc rs n r : chebyshev V -> rs < rc -> rs <= r -> Rabs (fading rc rs r * V n (to_unit rc rs r)) <= 1.
Proof.
  intros C H Hr. destruct (Rle_dec rc r) as [E|E].
  - unfold fading. destruct (Rle_dec r rs); [lra|]. destruct (Rle_dec rc r); [|lra]. rewrite Rmult_0_l, Rabs_R0. lra.
  - rewrite Rabs_mult. pose proof (fading_range rc rs r H) as F. rewrite (Rabs_pos_eq (fading rc rs r)) by lra.
    assert (Rabs (V n (to_unit rc rs r)) <= 1) as B.
    { assert (-1 <= to_unit rc rs r <= 1) as U by (apply to_unit_range; lra). rewrite <- (cos_acos _ U), C. apply Rabs_le. split; apply COS_bound. }
    pose proof (Rabs_pos (V n (to_unit rc rs r))). nra.
Qed.
Lemma T_grows u : u < -1 -> forall n, 1 <= Rabs (T n u) < Rabs (T (S n) u) /\ (T n u * T (S n) u < 0).
Proof.
  intros H. induction n as [|n ((A & B) & C)].
  - rewrite T_0, T_1, Rabs_R1, Rabs_left by lra. lra.
  - rewrite T_SS. assert (T (S n) u * (2 * u * T (S n) u - T n u) < 0) as E.
    { replace (T (S n) u * (2 * u * T (S n) u - T n u)) with (2 * u * (T (S n) u * T (S n) u) - T n u * T (S n) u) by ring.
      assert (Rabs (T n u) * Rabs (T (S n) u) < Rabs (T (S n) u) * Rabs (T (S n) u)) by nra. rewrite <- !Rabs_mult in *. rewrite (Rabs_left _ C) in *. rewrite (Rabs_pos_eq (T (S n) u * T (S n) u)) in * by apply Rle_0_sqr. nra. }
    split; [|exact E]. split; [lra|]. assert (T (S n) u * T (S n) u < - (T (S n) u * (2 * u * T (S n) u - T n u))) as F.
    { replace (T (S n) u * (2 * u * T (S n) u - T n u)) with (2 * u * (T (S n) u * T (S n) u) - T n u * T (S n) u) by ring.
      assert (Rabs (T n u) * Rabs (T (S n) u) < Rabs (T (S n) u) * Rabs (T (S n) u)) by nra. rewrite <- !Rabs_mult in *. rewrite (Rabs_left _ C) in *. rewrite (Rabs_pos_eq (T (S n) u * T (S n) u)) in * by apply Rle_0_sqr. nra. }
    rewrite <- (Rabs_left _ E) in F. rewrite <- (Rabs_pos_eq (T (S n) u * T (S n) u)) in F by apply Rle_0_sqr. rewrite !Rabs_mult in F. apply (Rmult_lt_reg_l (Rabs (T (S n) u))); [lra|exact F].
Qed.
Lemma unit_below rc rs r : rs < rc -> r < rs -> to_unit rc rs r < -1.
Proof. intros H Hr. unfold to_unit. apply (Rmult_lt_reg_r (rc - rs)); [lra|]. unfold Rdiv. rewrite Rmult_assoc, Rinv_l by lra. lra. Qed.
Lemma large_below rc rs n r : rs < rc -> r < rs -> 1 <= Rabs (fading rc rs r * T n (to_unit rc rs r)) < Rabs (fading rc rs r * T (S n) (to_unit rc rs r)).
Proof.
  intros H Hr. unfold fading. destruct (Rle_dec r rs); [|lra]. rewrite !Rmult_1_l. apply T_grows. now apply unit_below.
Qed.

(** *** The tables of a program *)
Lemma table_seen n l vs x rc rs m r : sense_all l (repeat None n) = Some vs -> knows vs x = Some (Known rc rs m r) ->
  exists s, acts l (empty_world n) = HOk s /\ rs < rc /\ visible s x = HOk (rc, rs, Z.of_nat m, r, Some [Tl rc rs r m; Dl rc rs r m; Vl rc rs r m; Gl rc rs r m]).
Proof.
  intros M K. destruct (acts_ok l _ _ _ (alike_empty n) M) as (s & E & F & _). exists s. split; auto. destruct (alike_knows _ _ _ _ F K) as (o & Eo & L & b1 & b2 & b3 & b4 & -> & St).
  split; auto. unfold visible. rewrite Eo. cbn [hbind]. now apply glance_settled.
Qed.
Lemma map_const {A} (f : nat -> A) a n k : (forall i, f i = a) -> map f (seq k n) = repeat a n.
Proof. intros H. revert k. induction n as [|n IH]; intros k; cbn; f_equal; auto. Qed.
Lemma outside_zero rc rs m r : rs < rc -> rc <= r -> Vl rc rs r m = repeat 0 (S m) /\ Gl rc rs r m = repeat 0 (S m).
Proof.
  intros H Hr. unfold Vl, Gl. split; apply map_const; intros i; unfold de_switch, de_switch_deriv; destruct (Rlt_dec r rs); try lra; destruct (Rlt_dec r rc); try lra; ring.
Qed.
Lemma inside_same rc rs m r : r < rs -> Vl rc rs r m = Tl rc rs r m /\ Gl rc rs r m = Dl rc rs r m.
Proof.
  intros Hr. unfold Vl, Gl, Tl, Dl. split; apply map_ext; intros i; unfold de_switch, de_switch_deriv; destruct (Rlt_dec r rs); try lra; ring.
Qed.
Lemma as_mtp rc rs m r old : rs < rc -> rs <= r -> sized (S m) old -> mq_build (S m) rc rs r old = Ok (Vl rc rs r m, Gl rc rs r m).
Proof.
  intros H Hr So. rewrite mq_build_ok by auto. unfold Vl, Gl. do 2 f_equal; apply map_ext; intros i; cbv beta; unfold Q, DQ; change (de_switch rc rs r) with (switch_result rc rs r); try change (de_switch_deriv rc rs r) with (switch_deriv2r rc rs r); destruct (Rlt_dec r rs); try lra; destruct (Rlt_dec r rc) as [L|L]; try ring;
    rewrite ?(switch_high rc rs H), ?(dswitch_high rc rs H) by lra; ring.
Qed.
Lemma tables_ok n l vs x rc rs m r : sense_all l (repeat None n) = Some vs -> knows vs x = Some (Known rc rs m r) ->
  exists s cv cd rv rd, acts l (empty_world n) = HOk s /\ visible s x = HOk (rc, rs, Z.of_nat m, r, Some [cv; cd; rv; rd]) /\
  (rs <= r -> Forall (fun v => Rabs v <= 1) rv) /\
  (rc <= r -> rv = repeat 0 (S m) /\ rd = repeat 0 (S m)) /\
  (r < rs -> rv = cv /\ rd = cd /\ nth 0 rv 0 = 1 /\ forall i, (i < m)%nat -> Rabs (nth i rv 0) < Rabs (nth (S i) rv 0)) /\
  (rs <= r -> forall old, sized (S m) old -> mq_build (S m) rc rs r old = Ok (rv, rd)).
Proof.
  intros M K. destruct (table_seen _ _ _ _ _ _ _ _ M K) as (s & E & H & Vs). exists s. do 4 eexists. split; [exact E|]. split; [exact Vs|]. split; [|split; [|split]].
  - intros Hr. unfold Vl. apply Forall_forall. intros v Hv. apply in_map_iff in Hv. destruct Hv as (i & <- & _). rewrite <- fading_eq by auto. apply bounded; auto. exact T_cos.
  - intros Hr. now apply outside_zero.
  - intros Hr. destruct (inside_same rc rs m r Hr) as (-> & ->). split; [reflexivity|]. split; [reflexivity|]. split; [unfold Tl; rewrite nth_seq_map by lia; apply T_0|].
    intros i Hi. unfold Tl. rewrite !nth_seq_map by lia. apply T_grows. now apply unit_below.
  - intros Hr old So. now apply as_mtp.
Qed.

Lemma make_fails s x rc rs m r : vacant R radial s x = HOk tt -> rc <= rs \/ (m < 0)%Z ->
  act (DMake x rc rs m r) s = HErr (if Rlt_dec rs rc then if (m =? -1)%Z then OutOfBounds else NullDeref else Aborted).
Proof.
  intros E H. cbn [act]. rewrite E. cbn [hbind]. destruct (Rlt_dec rs rc) as [L|L].
  - rewrite make_negative; auto. destruct H; [lra|auto].
  - rewrite make_radii by lra. reflexivity.
Qed.
Lemma blank_fails n l vs x p : sense_all l (repeat None n) = Some vs -> knows vs x = Some Blank -> acts (l ++ [DCalc x p]) (empty_world n) = HErr NullDeref.
Proof.
  intros M K. destruct (acts_ok l _ _ _ (alike_empty n) M) as (s & E & F & _). rewrite acts_app, E. cbn [hbind acts act]. destruct (alike_knows _ _ _ _ F K) as (o & Eo & Lo). rewrite Eo.
  cbn [like] in Lo. subst o. cbn [hbind]. rewrite blank_calc. reflexivity.
Qed.
Lemma leaks : exists n l vs s, sense_all l (repeat None n) = Some vs /\ (forall x, knows vs x = None) /\ acts l (empty_world n) = HOk s /\ in_use R (snd s) = 4%nat.
Proof.
  assert (sense_all [DMake 0 6 2 3 3; DDestroy 0] (repeat None 1) = Some [None]) as M by (cbn; destruct (Rlt_dec 2 6); [reflexivity|lra]).
  destruct (acts_ok _ _ _ _ (alike_empty 1) M) as (s & E & F & G & _). exists 1%nat, [DMake 0 6 2 3 3; DDestroy 0], [None], s. split; auto. split; [|split; auto]. intros [|[|x]]; reflexivity.
Qed.

(** *** A program *)
Lemma sample_sense : sense_all sample (repeat None 2) = Some [None; Some (Known 6 2 3 3)].
Proof. cbn. destruct (Rlt_dec 2 6); [reflexivity|lra]. Qed.
Lemma ex_sample : exists s, acts sample (empty_world 2) = HOk s /\ in_use R (snd s) = 4%nat /\ visible s 0 = HErr NoObject /\
  visible s 1 = HOk (6, 2, 3%Z, 3, Some [[1; -1 / 2; -1 / 2; 1]; [0; 1 / 2; -1; 0]; [459 / 512; -459 / 1024; -459 / 1024; 459 / 512]; [-135 / 512; 297 / 512; -783 / 1024; -135 / 512]]).
Proof.
  destruct (acts_ok sample _ _ _ (alike_empty 2) sample_sense) as (s & E & F & G). exists s. split; auto. split; [exact (proj1 G)|]. split; [exact (visible_ok _ _ 0 F)|].
  destruct (table_seen 2 sample _ 1 6 2 3 3 sample_sense eq_refl) as (s' & E' & _ & Vs). rewrite E in E'. injection E' as <-. rewrite Vs.
  assert (to_unit 6 2 3 = -1 / 2) as U by (unfold to_unit; field). assert (de_switch 6 2 3 = 459 / 512) as S1 by (unfold de_switch; destruct (Rlt_dec 3 2); [lra|]; destruct (Rlt_dec 3 6); [field|lra]).
  assert (de_switch_deriv 6 2 3 = -135 / 512) as S2 by (unfold de_switch_deriv; destruct (Rlt_dec 3 2); [lra|]; destruct (Rlt_dec 3 6); [field|lra]).
  unfold Tl, Dl, Vl, Gl. rewrite U, S1, S2. cbn [seq map]. rewrite !D_SS, !T_SS, !T_0, !T_1, !D_0, !D_1.
  change (Z.of_nat 3) with 3%Z. do 3 f_equal. repeat (apply f_equal2; [repeat (apply f_equal2; [field|]); reflexivity|]). reflexivity.
Qed.
Lemma ex_below : exists s cv cd rv rd, acts [DMake 0 6 2 3 0] (empty_world 1) = HOk s /\ visible s 0 = HOk (6, 2, 3%Z, 0, Some [cv; cd; rv; rd]) /\ rv = [1; -2; 7; -26].
Proof.
  assert (sense_all [DMake 0 6 2 3 0] (repeat None 1) = Some [Some (Known 6 2 3 0)]) as M by (cbn; destruct (Rlt_dec 2 6); [reflexivity|lra]).
  destruct (table_seen 1 _ _ 0 6 2 3 0 M eq_refl) as (s & E & _ & Vs). exists s. do 4 eexists. split; [exact E|]. split; [exact Vs|].
  destruct (inside_same 6 2 3 0) as (-> & _); [lra|]. assert (to_unit 6 2 0 = -2) as U by (unfold to_unit; field). unfold Tl. rewrite U. cbn [seq map]. rewrite !T_SS, !T_0, !T_1.
  repeat (apply f_equal2; [ring|]). reflexivity.
Qed.
