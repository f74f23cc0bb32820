(** Proofs about the memory of structures: what users see, and cases. *)
From Verif Require Import NestModel NestSpec NestProofs LifeModel LifeSpec LifeProofs LifeInv LifeMake LifeEnlarge LifeSteps.
Local Open Scope nat_scope.
Local Open Scope list_scope.

Lemma seen_inv vs s own x : inv vs s own -> seen s x = expected (holds vs x).
Proof.
  intros I. destruct s as [st h]. unfold seen. cbn [fst snd]. destruct (holds vs x) as [v|] eqn:H; cbn [expected].
  - destruct (held_object _ _ _ _ _ _ I H) as (_ & o & -> & Sl). cbn [hbind]. eapply show_held; eauto.
  - destruct (no_object _ _ _ _ _ I H) as [e E]. rewrite E. cbn [hbind]. unfold object in E. destruct (nth_error st x) as [[o|]|]; congruence.
Qed.
Lemma programs l n : Forall enlarges_properly l ->
  match meaning_all l (repeat None n) with
  | Some vs => exists s, run l (start n) = HOk s /\ (forall x, seen s x = expected (holds vs x)) /\ in_use (snd s) = needed_all vs
  | None => exists e, run l (start n) = HErr e
  end.
Proof.
  intros F. pose proof (run_meaning l _ _ _ (inv_start n) F) as H. destruct (meaning_all l (repeat None n)) as [vs|]; [|exact H].
  destruct H as (s & own & E & I). exists s. split; [exact E|]. split; [intros x; eapply seen_inv; eauto|eapply memory_needed; eauto].
Qed.
Lemma run_inv l n s : Forall enlarges_properly l -> run l (start n) = HOk s -> exists vs own, inv vs s own.
Proof.
  intros F E. pose proof (run_meaning l _ _ _ (inv_start n) F) as H. destruct (meaning_all l (repeat None n)) as [vs|].
  - destruct H as (s' & own & E' & I). exists vs, own. congruence.
  - destruct H as [e E']. congruence.
Qed.
Lemma run_app l1 l2 : forall s, run (l1 ++ l2) s = hbind (run l1 s) (run l2).
Proof. induction l1 as [|c l1 IH]; intros s; [reflexivity|]. cbn [app run]. destruct (step c s) as [s'|e]; cbn [hbind]; auto. Qed.
Lemma run_app_ok l1 l2 s s' : run (l1 ++ l2) s = HOk s' -> exists s1, run l1 s = HOk s1 /\ run l2 s1 = HOk s'.
Proof. rewrite run_app. destruct (run l1 s) as [s1|e]; cbn [hbind]; [eauto|discriminate]. Qed.

Lemma holds_replace_other vs x y v : x <> y -> holds (replace vs x v) y = holds vs y.
Proof. intros H. unfold holds. now rewrite nth_replace_other by lia. Qed.
Lemma meaning_other c vs vs' x : meaning c vs = Some vs' -> target c <> x -> holds vs' x = holds vs x.
Proof.
  assert (forall y v, Some (replace vs y v) = Some vs' -> y <> x -> holds vs' x = holds vs x) as G.
  { intros y v E H. injection E as <-. now apply holds_replace_other. }
  destruct c; cbn [meaning target]; intros E H;
    repeat match type of E with context [match ?t with _ => _ end] => destruct t; try discriminate E end; eapply G; eauto.
Qed.
Lemma meaning_all_other l : forall vs vs' x, meaning_all l vs = Some vs' -> Forall (fun c => target c <> x) l -> holds vs' x = holds vs x.
Proof.
  induction l as [|c l IH]; intros vs vs' x E F; cbn [meaning_all] in E; [congruence|]. inversion F as [|? ? Hc Hl]; subst.
  destruct (meaning c vs) as [vs1|] eqn:Em; [|discriminate]. rewrite (IH _ _ _ E Hl). eapply meaning_other; eauto.
Qed.
Lemma others_stay l1 l2 n s1 s2 x : Forall enlarges_properly (l1 ++ l2) -> run l1 (start n) = HOk s1 -> run l2 s1 = HOk s2 ->
  Forall (fun c => target c <> x) l2 -> seen s2 x = seen s1 x.
Proof.
  intros F E1 E2 Ht. apply Forall_app in F. destruct F as [F1 F2]. destruct (run_inv _ _ _ F1 E1) as (vs & own & I).
  pose proof (run_meaning l2 _ _ _ I F2) as H. destruct (meaning_all l2 vs) as [vs'|] eqn:Em.
  - destruct H as (s' & own' & E' & I'). assert (s' = s2) by congruence. subst s'.
    rewrite (seen_inv _ _ _ _ I'), (seen_inv _ _ _ _ I). f_equal. eapply meaning_all_other; eauto.
  - destruct H as [e E']. congruence.
Qed.
Lemma last_step l c n s : Forall enlarges_properly l -> enlarges_properly c -> run (l ++ [c]) (start n) = HOk s ->
  exists vs vs', (forall x, x < length vs -> exists o, nth_error vs x = Some o) /\ meaning c vs = Some vs' /\ forall x, seen s x = expected (holds vs' x).
Proof.
  intros F Hc E. apply run_app_ok in E. destruct E as (s1 & E1 & E2). cbn [run] in E2. destruct (step c s1) as [s'|e] eqn:Es; cbn [hbind] in E2; [|discriminate].
  assert (s' = s) by congruence. subst s'. destruct (run_inv _ _ _ F E1) as (vs & own & I). pose proof (step_meaning c _ _ _ I Hc) as H.
  destruct (meaning c vs) as [vs'|] eqn:Em; [|destruct H as [e H]; congruence]. destruct H as (s' & own' & E' & I'). assert (s' = s) by congruence. subst s'.
  exists vs, vs'. split; [|split; [exact Em|intros x; eapply seen_inv; eauto]].
  intros x Hx. destruct (nth_error vs x) eqn:En; [eauto|apply nth_error_None in En; lia].
Qed.
Lemma holds_lt vs x v : holds vs x = Some v -> x < length vs.
Proof. unfold holds. destruct (nth_error vs x) eqn:E; [intros _; apply nth_error_Some; congruence|discriminate]. Qed.
Lemma vacant_lt vs x : vacant vs x = true -> x < length vs.
Proof. unfold vacant. destruct (nth_error vs x) eqn:E; [intros _; apply nth_error_Some; congruence|discriminate]. Qed.
Lemma holds_replace_same vs x v : x < length vs -> holds (replace vs x (Some v)) x = Some v.
Proof. intros H. unfold holds. now rewrite nth_replace_same. Qed.
Lemma copy_same l x y n s : Forall enlarges_properly l -> run (l ++ [Copy x y]) (start n) = HOk s -> seen s x = seen s y /\ exists r, seen s y = HOk r.
Proof.
  intros F E. destruct (last_step l (Copy x y) n s F Logic.I E) as (vs & vs' & _ & Em & Hs). rewrite !Hs. cbn [meaning] in Em.
  destruct (vacant vs x) eqn:V; [|discriminate]. pose proof (vacant_lt _ _ V) as Hx.
  assert (holds vs x = None) as Hn by (unfold vacant in V; unfold holds; destruct (nth_error vs x) as [[|]|]; easy).
  destruct (holds vs y) as [w|] eqn:Hy; [|discriminate]. assert (x <> y) as Hne by congruence.
  destruct w as [|k|w]; [|discriminate|]; injection Em as <-; rewrite holds_replace_same, holds_replace_other, Hy by auto; cbn [expected print_held]; eauto.
Qed.
Lemma assign_same l x y n s : Forall enlarges_properly l -> x <> y -> run (l ++ [Assign x y]) (start n) = HOk s -> seen s x = seen s y /\ exists r, seen s y = HOk r.
Proof.
  intros F Hne E. destruct (last_step l (Assign x y) n s F Logic.I E) as (vs & vs' & _ & Em & Hs). rewrite !Hs. cbn [meaning] in Em.
  destruct (holds vs x) as [v|] eqn:Hx; [|discriminate]. pose proof (holds_lt _ _ _ Hx) as Hl.
  destruct (holds vs y) as [w|] eqn:Hy; [|discriminate]. destruct (Nat.eqb_spec x y); [contradiction|].
  destruct w as [|k|w]; [|discriminate|]; injection Em as <-; rewrite holds_replace_same, holds_replace_other, Hy by auto; cbn [expected print_held]; eauto.
Qed.
Lemma assign_itself l x n s1 r : Forall enlarges_properly l -> run l (start n) = HOk s1 -> seen s1 x = HOk r ->
  exists s, run (l ++ [Assign x x]) (start n) = HOk s /\ seen s x = HOk None.
Proof.
  intros F E Hr. destruct (run_inv _ _ _ F E) as (vs & own & I). rewrite (seen_inv _ _ _ _ I) in Hr.
  destruct (holds vs x) as [v|] eqn:Hx; [|discriminate]. pose proof (step_meaning (Assign x x) _ _ _ I Logic.I) as H.
  cbn [meaning] in H. rewrite Hx, Nat.eqb_refl in H. destruct H as (s & own' & Es & I'). exists s. split.
  - rewrite run_app, E. cbn [hbind run]. rewrite Es. reflexivity.
  - rewrite (seen_inv _ _ _ _ I'), holds_replace_same; [reflexivity|eapply holds_lt; eauto].
Qed.
Lemma nothing_lost l n s : Forall enlarges_properly l -> run l (start n) = HOk s ->
  (forall x, seen s x = HErr NoObject \/ seen s x = HOk None) -> in_use (snd s) = 0.
Proof.
  intros F E H. destruct (run_inv _ _ _ F E) as (vs & own & I). rewrite (memory_needed _ _ _ I). unfold needed_all.
  assert (forall v, In v vs -> needed v = 0) as G.
  { intros v Hv. destruct (In_nth_error _ _ Hv) as [x Hx]. specialize (H x). rewrite (seen_inv _ _ _ _ I) in H. unfold holds in H. rewrite Hx in H.
    destruct v as [[|k|v]|]; try reflexivity; cbn in H; destruct H; discriminate. }
  clear -G. induction vs as [|v vs IH]; [reflexivity|]. cbn [map list_sum fold_right]. change (needed v + list_sum (map needed vs) = 0).
  rewrite (G v (or_introl eq_refl)), IH; [reflexivity|]. intros w Hw. apply G. now right.
Qed.

(** *** Cases *)
Definition unit3 : list (list Z) := [[1; 0; 0]; [0; 1; 0]; [0; 0; 1]]%Z.
Definition one_atom : command := Make 0 1 unit3 [29]%Z [[0; 0; 0]]%Z true.
Lemma zero_loses : exists s, run [one_atom; Enlarge 0 0 1 1; Destroy 0] (start 1) = HOk s /\ (forall x, seen s x = HErr NoObject) /\ in_use (snd s) > 0.
Proof.
  destruct (run [one_atom; Enlarge 0 0 1 1; Destroy 0] (start 1)) as [s|e] eqn:E; [|vm_compute in E; discriminate].
  exists s. split; [reflexivity|]. vm_compute in E. injection E as <-. split.
  - intros [|[|x]]; reflexivity.
  - vm_compute. lia.
Qed.

(** *** Atoms inside the cell *)
Lemma in_cells s i : In i (cells s) -> (0 <= i - first_cell s < Z.of_nat s)%Z.
Proof. unfold cells. intros H. apply in_map_iff in H. destruct H as (k & <- & Hk). apply in_seq in Hk. lia. Qed.
Lemma in_shifts s0 s1 s2 i j k : In (i, j, k) (shifts s0 s1 s2) -> In i (cells s0) /\ In j (cells s1) /\ In k (cells s2).
Proof.
  unfold shifts. intros H. apply in_flat_map in H. destruct H as (i' & Hi & H). apply in_flat_map in H. destruct H as (j' & Hj & H).
  apply in_map_iff in H. destruct H as (k' & E & Hk). injection E as <- <- <-. auto.
Qed.
Lemma enlarged_inside s0 s1 s2 v : good v -> 0 < s0 -> 0 < s1 -> 0 < s2 -> origin v = [0; 0; 0]%Z -> inside (print_of v) -> inside (print_of (enlarged s0 s1 s2 v)).
Proof.
  intros G P0 P1 P2 Ho Hin z c Hc. cbn [p_sites print_of p_origin p_basis] in *. apply in_combine_r in Hc. rewrite enlarged_coords in Hc.
  apply in_map_iff in Hc. destruct Hc as ([[[i j] k] a] & <- & Hp). cbn [fst snd move]. pose proof (in_places _ _ _ _ Hp) as Ha.
  assert (In (i, j, k) (shifts s0 s1 s2)) as Hs.
  { unfold places in Hp. apply in_flat_map in Hp. destruct Hp as (s & Hs & Hp). apply in_map_iff in Hp. destruct Hp as (a' & E & _). congruence. }
  apply in_shifts in Hs. destruct Hs as (Hi & Hj & Hk). apply in_cells in Hi, Hj, Hk.
  destruct G as (Gb & _ & _ & Gc & Gn). destruct (rows_row _ _ a Gc Ha) as (r & Er & Lr). rewrite (nth_error_nth _ _ _ Er).
  destruct (nth_error (numbers v) a) as [y|] eqn:Ey; [|apply nth_error_None in Ey; lia].
  destruct (Hin y r) as (d & k0 & k1 & k2 & (B0 & B1 & B2) & E).
  { cbn [p_sites print_of]. assert (forall (l : list Z) (m : list (list Z)) n, nth_error l n = Some y -> nth_error m n = Some r -> In (y, r) (combine l m)) as Hcomb; [|eapply Hcomb; eauto].
    induction l as [|p l IH]; intros [|q m] [|n]; cbn; try discriminate; [left; congruence|right; eauto]. }
  cbn [p_origin p_basis print_of] in E. rewrite Ho in E.
  destruct (rows3 _ Gb) as (za & zb & zc & zd & ze & zf & zg & zh & zi & Eb). destruct (three r Lr) as (c0 & c1 & c2 & ->). rewrite Eb in E.
  unfold enlarged. cbn [origin basis]. rewrite Eb. set (f0 := first_cell s0) in *. set (f1 := first_cell s1) in *. set (f2 := first_cell s2) in *.
  set (t0 := Z.of_nat s0) in *. set (t1 := Z.of_nat s1) in *. set (t2 := Z.of_nat s2) in *.
  assert (0 < t0 /\ 0 < t1 /\ 0 < t2)%Z as (Q0 & Q1 & Q2) by lia.
  exists (d * (t0 * t1 * t2))%Z, ((k0 + d * (i - f0)) * (t1 * t2))%Z, ((k1 + d * (j - f1)) * (t0 * t2))%Z, ((k2 + d * (k - f2)) * (t0 * t1))%Z.
  assert (forall x q e t u, 0 <= x < e -> 0 <= q < t -> 0 < u -> 0 <= (x + e * q) * u < e * (t * u))%Z as Hb.
  { intros x q e t u Hx Hq Hu. assert (0 <= e * q)%Z by nia. split; [nia|]. assert (x + e * q < e * t)%Z by nia. nia. }
  split.
  { replace (t0 * t1 * t2)%Z with (t0 * (t1 * t2))%Z at 1 by ring.
    split; [apply Hb; auto; nia|]. split.
    - replace (d * (t0 * t1 * t2))%Z with (d * (t1 * (t0 * t2)))%Z by ring. apply Hb; auto; nia.
    - replace (d * (t0 * t1 * t2))%Z with (d * (t2 * (t0 * t1)))%Z by ring. apply Hb; auto; nia. }
  unfold vcomb, vadd, vscale in E. cbn [combine map fold_left fst snd] in E.
  injection E as E0 E1 E2.
  unfold vcomb, vadd, vscale. cbn [combine map fold_left fst snd].
  assert (d * c0 = k0 * za + k1 * zd + k2 * zg)%Z as F0 by (rewrite E0; ring).
  assert (d * c1 = k0 * zb + k1 * ze + k2 * zh)%Z as F1 by (rewrite E1; ring).
  assert (d * c2 = k0 * zc + k1 * zf + k2 * zi)%Z as F2 by (rewrite E2; ring).
  fold t0 t1 t2. f_equal; [|f_equal; [|f_equal]].
  - transitivity ((d * c0 + d * (i * za + j * zd + k * zg)) * (t0 * t1 * t2))%Z; [ring|]. rewrite F0. ring.
  - transitivity ((d * c1 + d * (i * zb + j * ze + k * zh)) * (t0 * t1 * t2))%Z; [ring|]. rewrite F1. ring.
  - transitivity ((d * c2 + d * (i * zc + j * zf + k * zi)) * (t0 * t1 * t2))%Z; [ring|]. rewrite F2. ring.
Qed.
Lemma inv_good vs s own x v : inv vs s own -> holds vs x = Some (Full v) -> good v.
Proof.
  intros I H. destruct s as [st h]. destruct (held_object _ _ _ _ _ _ I H) as (_ & o & _ & Sl). apply Sl.
Qed.
Lemma enlarging_keeps_inside l x s0 s1 s2 n st p : Forall enlarges_properly l -> run l (start n) = HOk st -> seen st x = HOk (Some p) ->
  p_origin p = [0; 0; 0]%Z -> inside p -> 0 < s0 -> 0 < s1 -> 0 < s2 ->
  exists st' p', run (l ++ [Enlarge x s0 s1 s2]) (start n) = HOk st' /\ seen st' x = HOk (Some p') /\ inside p' /\
    length (p_sites p') = length (p_sites p) * s0 * s1 * s2 /\
    p_origin p' = vcomb [first_cell s0; first_cell s1; first_cell s2] (p_basis p).
Proof.
  intros F E Hs Ho Hin P0 P1 P2. destruct (run_inv _ _ _ F E) as (vs & own & I). rewrite (seen_inv _ _ _ _ I) in Hs.
  destruct (holds vs x) as [[|k|v]|] eqn:Hx; try discriminate. cbn [expected print_held] in Hs.
  assert (p = print_of v) as -> by congruence. pose proof (inv_good _ _ _ _ _ I Hx) as G.
  pose proof (step_meaning (Enlarge x s0 s1 s2) _ _ _ I (conj P0 (conj P1 P2))) as H. cbn [meaning] in H. rewrite Hx in H.
  destruct H as (st' & own' & Es & I'). exists st', (print_of (enlarged s0 s1 s2 v)). split; [|split; [|split; [|split]]].
  - rewrite run_app, E. cbn [hbind run]. rewrite Es. reflexivity.
  - rewrite (seen_inv _ _ _ _ I'), holds_replace_same; [reflexivity|eapply holds_lt; eauto].
  - now apply enlarged_inside.
  - cbn [p_sites print_of]. destruct G as (_ & _ & _ & _ & Gn). rewrite !combine_length, Gn, Nat.min_id, enlarged_length.
    unfold enlarged. cbn [numbers]. rewrite concat_repeat_length, Gn. rewrite Nat.min_r; [reflexivity|]. apply Nat.eq_le_incl. ring.
  - reflexivity.
Qed.
Lemma twice_not_inside : exists s p, run [one_atom; Enlarge 0 3 1 1; Enlarge 0 1 1 1] (start 1) = HOk s /\ seen s 0 = HOk (Some p) /\ ~ inside p.
Proof.
  destruct (run [one_atom; Enlarge 0 3 1 1; Enlarge 0 1 1 1] (start 1)) as [s|e] eqn:E; [|vm_compute in E; discriminate].
  destruct (seen s 0) as [[p|]|e] eqn:Es; [|vm_compute in E; injection E as <-; vm_compute in Es; discriminate..].
  exists s, p. split; [reflexivity|]. split; [exact Es|]. vm_compute in E. injection E as <-. vm_compute in Es. injection Es as <-.
  intros H. destruct (H 29 [-1; 0; 0])%Z as (d & k0 & k1 & k2 & (B0 & B1 & B2) & Eq); [left; reflexivity|].
  unfold vcomb, vadd, vscale in Eq. cbn [combine map fold_left fst snd p_origin p_basis] in Eq. injection Eq as E0 _ _. lia.
Qed.
