(** Proofs about the memory of structures: assignments, construction and release. *)
From Verif Require Import NestModel NestSpec NestProofs LifeModel LifeSpec.
From Coq Require Import FinFun.
Local Open Scope nat_scope.
Local Open Scope list_scope.

(** ** Indices of loops *)
Lemma loops_within dims idx : In idx (loops dims) <-> within dims idx.
Proof.
  revert idx. induction dims as [|n r IH]; intros idx; cbn [loops].
  - split; [intros [<-|[]]; constructor|intros H; inversion H; now left].
  - rewrite in_flat_map. split.
    + intros (i & Hi & Hx). apply in_map_iff in Hx. destruct Hx as (j & <- & Hj). apply in_seq in Hi.
      constructor; [lia|]. now apply IH.
    + intros H. inversion H as [|i ? j ? Hi Hj]; subst. exists i. split; [apply in_seq; lia|]. apply in_map. now apply IH.
Qed.
Lemma flat_map_NoDup {A B} (f : A -> list B) l : NoDup l -> (forall x, In x l -> NoDup (f x)) ->
  (forall x y b, In x l -> In y l -> x <> y -> In b (f x) -> ~ In b (f y)) -> NoDup (flat_map f l).
Proof.
  induction l as [|x l IH]; intros Hd Hf Hx; [constructor|]. inversion Hd as [|? ? Hn Hd']; subst. cbn [flat_map].
  assert (NoDup (f x)) as H1 by (apply Hf; now left).
  assert (NoDup (flat_map f l)) as H2.
  { apply IH; auto; [intros; apply Hf; now right|intros; eapply Hx; eauto; now right]. }
  clear IH. revert H1 H2. assert (forall b, In b (f x) -> ~ In b (flat_map f l)) as H3.
  { intros b Hb Hc. apply in_flat_map in Hc. destruct Hc as (y & Hy & Hc). apply (Hx x y b); auto; [now left|now right|intros ->; auto]. }
  revert H3. generalize (f x) (flat_map f l). intros l1 l2 H3 H1 H2. induction H1 as [|b l1 Hb _ IH]; [exact H2|].
  cbn [app]. constructor.
  - rewrite in_app_iff. intros [H|H]; [auto|]. apply (H3 b); [now left|auto].
  - apply IH. intros; apply H3; now right.
Qed.
Lemma loops_NoDup dims : NoDup (loops dims).
Proof.
  induction dims as [|n r IH]; cbn [loops]; [repeat constructor; easy|]. apply flat_map_NoDup; [apply seq_NoDup| |].
  - intros i _. apply Injective_map_NoDup; auto. intros a b H; congruence.
  - intros i j b _ _ Hij H1 H2. apply in_map_iff in H1, H2. destruct H1 as (? & <- & _). destruct H2 as (? & E & _). congruence.
Qed.

(** ** Assignments *)
Lemma assigns_writes l b : forall h l', map fst l = map fst l' ->
  (forall i p v, nth_error l i = Some p -> nth_error l' i = Some v ->
     forall h1, writes h b (firstn i l') = HOk h1 -> snd p h1 = HOk (snd v)) ->
  assigns l b h = writes h b l'.
Proof.
  induction l as [|[idx e] l IH]; intros h [|[idx' v] l'] Hf Hr; try discriminate; [reflexivity|].
  assert (idx = idx') by (cbn in Hf; congruence). subst idx'.
  unfold assigns. cbn [hfold fst snd writes].
  rewrite (Hr 0 (idx, e) (idx, v) eq_refl eq_refl h eq_refl : e h = HOk v). cbn [hbind snd].
  destruct (write_at h b idx v) as [h1|err] eqn:E; [|reflexivity]. cbn [hbind]. apply IH.
  - cbn in Hf. congruence.
  - intros i p w Hp Hw h2 H2. apply (Hr (S i) p w Hp Hw). cbn [firstn writes]. rewrite E. exact H2.
Qed.
Lemma Forall_firstn' {A} (P : A -> Prop) n l : Forall P l -> Forall P (firstn n l).
Proof. intros H. revert n. induction H; intros [|n]; cbn; constructor; auto. Qed.
Lemma assigns_tree dims own l l' h b f : tree h dims b own f -> NoDup own -> map fst l = map fst l' ->
  Forall (fun e => within dims (fst e)) l' ->
  (forall i p v, nth_error l i = Some p -> nth_error l' i = Some v ->
     forall h1, length h1 = length h -> agree (fun x => ~ In x own) h h1 ->
       tree h1 dims b own (fun idx => last_written idx (firstn i l') (f idx)) -> snd p h1 = HOk (snd v)) ->
  exists h', assigns l b h = HOk h' /\ length h' = length h /\ agree (fun x => ~ In x own) h h' /\
    tree h' dims b own (fun idx => last_written idx l' (f idx)).
Proof.
  intros T Hd Hf Hw Hr. destruct (writes_tree dims own l' h b f T Hd Hw) as (h' & E & L & Ha & T').
  exists h'. split; [|auto]. rewrite <- E. apply assigns_writes; auto.
  intros i p v Hp Hv h1 H1. destruct (writes_tree dims own (firstn i l') h b f T Hd) as (h1' & E1 & L1 & Ha1 & T1).
  - now apply Forall_firstn'.
  - assert (h1 = h1') as -> by congruence. eapply Hr; eauto.
Qed.
Lemma last_written_const idx w l : forall old, (forall v, In (idx, v) l -> v = w) -> (In (idx, w) l \/ old = Some w) ->
  last_written idx l old = Some w.
Proof.
  induction l as [|[j v] l IH]; intros old Hv Ho; cbn [last_written].
  - destruct Ho as [[]|Ho]; exact Ho.
  - apply IH; [intros; apply Hv; now right|]. destruct (list_eq_dec Nat.eq_dec j idx) as [->|Hne].
    + right. f_equal. apply Hv. now left.
    + destruct Ho as [[H|H]|H]; [congruence|now left|now right].
Qed.
Lemma last_written_other idx l : forall old, ~ In idx (map fst l) -> last_written idx l old = old.
Proof.
  induction l as [|[j v] l IH]; intros old Hn; [reflexivity|]. cbn [last_written]. cbn [map fst In] in Hn.
  destruct (list_eq_dec Nat.eq_dec j idx) as [->|_]; [exfalso; auto|]. apply IH; auto.
Qed.
Lemma last_written_fun (F : list nat -> Z) idx l old : In idx l -> last_written idx (map (fun i => (i, F i)) l) old = Some (F idx).
Proof.
  intros H. apply last_written_const.
  - intros v Hv. apply in_map_iff in Hv. destruct Hv as (j & E & _). congruence.
  - left. apply in_map_iff. eauto.
Qed.

(** ** New arrays *)
(** What a read gives as long as the older blocks are as in [h]. *)
Definition outcome (dims : list nat) (e : heap -> list nat -> hres Z) (h : heap) (R : list nat -> hres Z) : Prop :=
  forall idx h1, within dims idx -> length h <= length h1 -> agree (fun x => x < length h) h h1 -> e h1 idx = R idx.
Lemma outcome_later dims e h R h' : outcome dims e h R -> length h <= length h' -> agree (fun x => x < length h) h h' -> outcome dims e h' R.
Proof.
  intros O L A idx h1 Hx L1 A1. apply O; auto; [lia|]. intros x Hlt. rewrite A1 by lia. now apply A.
Qed.
Lemma all_or_one {A} (R : A -> hres Z) l : (forall x, In x l -> exists v, R x = HOk v) \/ (exists x e, In x l /\ R x = HErr e).
Proof.
  induction l as [|a l [IH|(x & e & Hx & E)]]; [left; easy| |right; exists x, e; split; [now right|auto]].
  destruct (R a) as [v|e] eqn:E; [left|right; exists a, e; split; [now left|auto]].
  intros x [<-|Hx]; eauto.
Qed.
Definition val (r : hres Z) : Z := match r with HOk v => v | HErr _ => 0%Z end.
Lemma new_array_ok dims e h R : dims <> [] -> outcome dims e h R -> (forall idx, within dims idx -> exists v, R idx = HOk v) ->
  exists h', new_array dims e h = HOk (length h, h') /\ length h' = length h + block_count dims /\
    agree (fun x => x < length h) h h' /\
    tree h' dims (length h) (seq (length h) (block_count dims)) (fun idx => Some (val (R idx))).
Proof.
  intros Hne O HR. destruct (allocate_tree dims false h Hne) as (h1 & E1 & L1 & A1 & T1).
  unfold new_array. rewrite E1. cbn [hbind].
  set (l := map (fun idx => (idx, fun h => e h idx)) (loops dims)).
  set (l' := map (fun idx => (idx, val (R idx))) (loops dims)).
  destruct (assigns_tree dims _ l l' h1 (length h) _ T1 (seq_NoDup _ _)) as (h2 & E2 & L2 & A2 & T2).
  - unfold l, l'. rewrite !map_map. reflexivity.
  - apply Forall_forall. intros p Hp. apply in_map_iff in Hp. destruct Hp as (idx & <- & Hx). now apply loops_within.
  - intros i p v Hp Hv h2 L2 A2 _. unfold l, l' in Hp, Hv. rewrite nth_error_map in Hp, Hv.
    destruct (nth_error (loops dims) i) as [idx|] eqn:Ei; [|discriminate]. cbn in Hp, Hv.
    assert (within dims idx) as Hx by (apply loops_within; eapply nth_error_In; eauto).
    injection Hp as <-. injection Hv as <-. cbn [snd].
    rewrite (O idx h2 Hx); [|lia|].
    + destruct (HR idx Hx) as [w Ew]. rewrite Ew. reflexivity.
    + intros x Hlt. rewrite A2; [now apply A1|]. rewrite in_seq. lia.
  - exists h2. rewrite E2. cbn [hbind]. split; [reflexivity|]. split; [lia|]. split.
    + intros x Hlt. rewrite A2; [now apply A1|]. rewrite in_seq. lia.
    + eapply tree_ext; [|exact T2]. intros idx Hx. cbn beta. unfold l'. rewrite (last_written_fun (fun idx => val (R idx))); [reflexivity|].
      now apply loops_within.
Qed.
Lemma assigns_bad dims own l : forall h b f R, tree h dims b own f -> NoDup own -> Forall (fun a => within dims (fst a)) l ->
  (forall a h1, In a l -> length h1 = length h -> agree (fun x => ~ In x own) h h1 -> snd a h1 = R (fst a)) ->
  (exists a e, In a l /\ R (fst a) = HErr e) -> exists e, assigns l b h = HErr e.
Proof.
  induction l as [|a l IH]; intros h b f R T Hd Hw Hr (a0 & e0 & H0 & E0); [easy|].
  inversion Hw as [|? ? Ha Hl]; subst.
  change (exists e, hbind (hbind (snd a h) (fun v => write_at h b (fst a) v)) (assigns l b) = HErr e).
  rewrite (Hr a h); [|now left|auto|intros ? ?; auto]. destruct (R (fst a)) as [v|e] eqn:E; [|eexists; reflexivity]. cbn [hbind].
  destruct (write_spec dims h b own f (fst a) v T Hd Ha) as (h1 & E1 & L1 & A1 & T1). rewrite E1. cbn [hbind].
  apply (IH h1 b _ R T1 Hd Hl).
  - intros a1 h2 H1 L2 A2. apply Hr; [now right|congruence|]. intros x Hx. rewrite A2 by auto. now apply A1.
  - exists a0, e0. split; auto. destruct H0 as [->|H0]; [congruence|exact H0].
Qed.
Lemma new_array_bad dims e h R idx err : dims <> [] -> outcome dims e h R -> within dims idx -> R idx = HErr err ->
  exists e', new_array dims e h = HErr e'.
Proof.
  intros Hne O Hx HR. destruct (allocate_tree dims false h Hne) as (h1 & E1 & L1 & A1 & T1).
  unfold new_array. rewrite E1. cbn [hbind].
  destruct (assigns_bad dims _ (map (fun idx => (idx, fun h => e h idx)) (loops dims)) h1 (length h) _ R T1 (seq_NoDup _ _)) as (e' & E').
  - apply Forall_forall. intros p Hp. apply in_map_iff in Hp. destruct Hp as (j & <- & Hj). now apply loops_within.
  - intros a h2 Ha L2 A2. apply in_map_iff in Ha. destruct Ha as (j & <- & Hj). cbn [fst snd]. apply O; [now apply loops_within|lia|].
    intros x Hlt. rewrite A2; [now apply A1|]. rewrite in_seq. lia.
  - exists (idx, fun h => e h idx), err. split; auto. apply in_map_iff. exists idx. split; auto. now apply loops_within.
  - rewrite E'. eexists; reflexivity.
Qed.

(** ** Objects *)
Definition arrays (h : heap) (o : obj) (own : list nat) (fb fo fn fc : list nat -> option Z) : Prop :=
  exists b p a c o1 o2 o3 o4,
    o_basis o = Some b /\ o_origin o = Some p /\ o_numbers o = Some a /\ o_coords o = Some c /\
    own = o1 ++ o2 ++ o3 ++ o4 /\ NoDup own /\
    tree h [3; 3] b o1 fb /\ tree h [3] p o2 fo /\ tree h [o_n o] a o3 fn /\ tree h [o_n o; 3] c o4 fc.
Lemma tree_later h h' dims b own f : tree h dims b own f -> agree (fun x => x < length h) h h' -> tree h' dims b own f.
Proof.
  intros T A. eapply tree_frame; [|exact T]. intros x Hx. apply A. destruct (tree_alive _ _ _ _ _ _ T Hx) as [c Hc].
  apply nth_error_Some. congruence.
Qed.
Lemma tree_apart h h' dims b own f o : tree h dims b own f -> agree (fun x => ~ In x o) h h' -> (forall x, In x own -> ~ In x o) -> tree h' dims b own f.
Proof. intros T A D. eapply tree_frame; [|exact T]. intros x Hx. apply A. auto. Qed.
Lemma agree_trans h1 h2 h3 : length h1 <= length h2 -> agree (fun x => x < length h1) h1 h2 -> agree (fun x => x < length h2) h2 h3 ->
  agree (fun x => x < length h1) h1 h3.
Proof. intros L A B x Hx. rewrite B by lia. now apply A. Qed.

Lemma build_ok n eb eo en ec h Rb Ro Rn Rc : 0 < n ->
  outcome [3; 3] eb h Rb -> outcome [3] eo h Ro -> outcome [n] en h Rn ->
  (forall h1, length h <= length h1 -> agree (fun x => x < length h) h h1 ->
     (exists own, tree h1 [3; 3] (length h) own (fun idx => Some (val (Rb idx)))) -> outcome [n; 3] (ec (length h)) h1 Rc) ->
  (forall idx, within [3; 3] idx -> exists v, Rb idx = HOk v) -> (forall idx, within [3] idx -> exists v, Ro idx = HOk v) ->
  (forall idx, within [n] idx -> exists v, Rn idx = HOk v) -> (forall idx, within [n; 3] idx -> exists v, Rc idx = HOk v) ->
  exists o h', build n eb eo en ec h = HOk (o, h') /\ o_n o = n /\ length h' = length h + (n + 7) /\
    agree (fun x => x < length h) h h' /\
    arrays h' o (seq (length h) (n + 7)) (fun i => Some (val (Rb i))) (fun i => Some (val (Ro i))) (fun i => Some (val (Rn i))) (fun i => Some (val (Rc i))).
Proof.
  intros Hn Ob Oo On Oc Hb Ho Ha Hc. unfold build.
  destruct (new_array_ok [3; 3] eb h Rb ltac:(easy) Ob Hb) as (h1 & E1 & L1 & A1 & T1). cbn [block_count] in L1.
  rewrite E1. cbn [hbind].
  destruct (new_array_ok [3] eo h1 Ro ltac:(easy)) as (h2 & E2 & L2 & A2 & T2); [apply (outcome_later _ _ h); auto; lia|auto|].
  cbn [block_count] in L2. rewrite E2. cbn [hbind].
  assert (agree (fun x => x < length h) h h2) as A02 by (apply (agree_trans h h1 h2); auto; lia).
  destruct (new_array_ok [n] en h2 Rn ltac:(easy)) as (h3 & E3 & L3 & A3 & T3); [apply (outcome_later _ _ h); auto; lia|auto|].
  cbn [block_count] in L3. rewrite E3. cbn [hbind].
  assert (agree (fun x => x < length h) h h3) as A03 by (apply (agree_trans h h2 h3); auto; lia).
  assert (tree h3 [3; 3] (length h) (seq (length h) (block_count [3; 3])) (fun idx => Some (val (Rb idx)))) as T13.
  { apply (tree_later h2 h3); [apply (tree_later h1 h2); auto|auto]. }
  destruct (new_array_ok [n; 3] (ec (length h)) h3 Rc ltac:(easy)) as (h4 & E4 & L4 & A4 & T4); [apply Oc; eauto; lia|auto|].
  rewrite E4. cbn [hbind]. eexists. exists h4. split; [reflexivity|].
  cbn [block_count] in L4. cbn [o_n]. split; [reflexivity|]. split; [lia|]. split; [apply (agree_trans h h3 h4); auto; lia|].
  exists (length h), (length h1), (length h2), (length h3).
  exists (seq (length h) 4), (seq (length h1) 1), (seq (length h2) (block_count [n])), (seq (length h3) (block_count [n; 3])). cbn [o_basis o_origin o_numbers o_coords o_n].
  do 4 (split; [reflexivity|]). split.
  { replace (length h1) with (length h + 4) by lia. replace (length h2) with (length h + 4 + 1) by lia.
    replace (length h3) with (length h + 4 + 1 + 1) by lia.
    replace (n + 7) with (4 + (1 + (1 + block_count [n; 3]))) by (cbn [block_count]; lia).
    replace (block_count [n]) with 1 by (cbn [block_count]; lia). rewrite !seq_app. reflexivity. }
  split; [apply seq_NoDup|]. split; [|split; [|split]].
  - apply (tree_later h3 h4); [exact T13|exact A4].
  - apply (tree_later h3 h4); [apply (tree_later h2 h3); [exact T2|exact A3]|exact A4].
  - apply (tree_later h3 h4); [exact T3|exact A4].
  - exact T4.
Qed.
Definition some_bad (dims : list nat) (R : list nat -> hres Z) : Prop := exists idx e, within dims idx /\ R idx = HErr e.
Lemma ok_or_bad dims R : (forall idx, within dims idx -> exists v, R idx = HOk v) \/ some_bad dims R.
Proof.
  destruct (all_or_one R (loops dims)) as [H|(x & e & Hx & E)].
  - left. intros idx Hi. apply H. now apply loops_within.
  - right. exists x, e. split; auto. now apply loops_within.
Qed.
Lemma not_bad dims R : (forall idx, within dims idx -> exists v, R idx = HOk v) -> some_bad dims R -> False.
Proof. intros H (idx & e & Hx & E). destruct (H idx Hx). congruence. Qed.
Lemma build_bad n eb eo en ec h Rb Ro Rn Rc :
  outcome [3; 3] eb h Rb -> outcome [3] eo h Ro -> outcome [n] en h Rn ->
  (forall h1, length h <= length h1 -> agree (fun x => x < length h) h h1 ->
     (exists own, tree h1 [3; 3] (length h) own (fun idx => Some (val (Rb idx)))) -> outcome [n; 3] (ec (length h)) h1 Rc) ->
  some_bad [3; 3] Rb \/ some_bad [3] Ro \/ some_bad [n] Rn \/ some_bad [n; 3] Rc ->
  exists e, build n eb eo en ec h = HErr e.
Proof.
  intros Ob Oo On Oc Bad. unfold build.
  destruct (ok_or_bad [3; 3] Rb) as [Hb|(idx & e & Hx & E)].
  2:{ destruct (new_array_bad [3; 3] eb h Rb idx e ltac:(easy) Ob Hx E) as (e' & E'). rewrite E'. eexists; reflexivity. }
  destruct Bad as [Bad|Bad]; [exfalso; eapply not_bad; eauto|].
  destruct (new_array_ok [3; 3] eb h Rb ltac:(easy) Ob Hb) as (h1 & E1 & L1 & A1 & T1). cbn [block_count] in L1.
  rewrite E1. cbn [hbind].
  assert (outcome [3] eo h1 Ro) as Oo1 by (apply (outcome_later _ _ h); auto; lia).
  destruct (ok_or_bad [3] Ro) as [Ho|(idx & e & Hx & E)].
  2:{ destruct (new_array_bad [3] eo h1 Ro idx e ltac:(easy) Oo1 Hx E) as (e' & E'). rewrite E'. eexists; reflexivity. }
  destruct Bad as [Bad|Bad]; [exfalso; eapply not_bad; eauto|].
  destruct (new_array_ok [3] eo h1 Ro ltac:(easy) Oo1 Ho) as (h2 & E2 & L2 & A2 & T2).
  cbn [block_count] in L2. rewrite E2. cbn [hbind].
  assert (agree (fun x => x < length h) h h2) as A02 by (apply (agree_trans h h1 h2); auto; lia).
  assert (outcome [n] en h2 Rn) as On2 by (apply (outcome_later _ _ h); auto; lia).
  destruct (ok_or_bad [n] Rn) as [Ha|(idx & e & Hx & E)].
  2:{ destruct (new_array_bad [n] en h2 Rn idx e ltac:(easy) On2 Hx E) as (e' & E'). rewrite E'. eexists; reflexivity. }
  destruct Bad as [Bad|(idx & e & Hx & E)]; [exfalso; eapply not_bad; eauto|].
  destruct (new_array_ok [n] en h2 Rn ltac:(easy) On2 Ha) as (h3 & E3 & L3 & A3 & T3).
  cbn [block_count] in L3. rewrite E3. cbn [hbind].
  assert (agree (fun x => x < length h) h h3) as A03 by (apply (agree_trans h h2 h3); auto; lia).
  assert (tree h3 [3; 3] (length h) (seq (length h) (block_count [3; 3])) (fun idx => Some (val (Rb idx)))) as T13.
  { apply (tree_later h2 h3); [apply (tree_later h1 h2); auto|auto]. }
  destruct (new_array_bad [n; 3] (ec (length h)) h3 Rc idx e ltac:(easy)) as (e' & E'); auto; [apply Oc; eauto; lia|].
  rewrite E'. eexists; reflexivity.
Qed.

Lemma NoDup4 {A} (a b c d : list A) : NoDup (a ++ b ++ c ++ d) ->
  NoDup a /\ NoDup b /\ NoDup c /\ NoDup d /\
  (forall x, In x a -> ~ In x b /\ ~ In x c /\ ~ In x d) /\ (forall x, In x b -> ~ In x c /\ ~ In x d) /\ (forall x, In x c -> ~ In x d).
Proof.
  intros H. apply NoDup_app_parts in H. destruct H as (Ha & H & D1). apply NoDup_app_parts in H. destruct H as (Hb & H & D2).
  apply NoDup_app_parts in H. destruct H as (Hc & Hd & D3). repeat (split; [assumption|]). split; [|split].
  - intros x Hx. specialize (D1 x Hx). rewrite !in_app_iff in D1. tauto.
  - intros x Hx. specialize (D2 x Hx). rewrite !in_app_iff in D2. tauto.
  - exact D3.
Qed.
Lemma free_tree dims h b own f sizes : tree h dims b own f -> NoDup own -> sizes = removelast dims ->
  exists h', free_nested sizes h b = HOk h' /\ length h' = length h /\ agree (fun x => ~ In x own) h h' /\
             forall x, In x own -> nth_error h' x = Some None.
Proof. intros T Hd ->. eapply free_spec; eauto. Qed.
Lemma release_ok h o own fb fo fn fc : arrays h o own fb fo fn fc ->
  exists h', release o h = HOk h' /\ length h' = length h /\ agree (fun x => ~ In x own) h h' /\ forall x, In x own -> nth_error h' x = Some None.
Proof.
  intros (b & p & a & c & o1 & o2 & o3 & o4 & Eb & Ep & Ea & Ec & -> & Hd & T1 & T2 & T3 & T4).
  apply NoDup4 in Hd. destruct Hd as (N1 & N2 & N3 & N4 & D1 & D2 & D3).
  unfold release. rewrite Eb, Ep, Ea, Ec. cbn [deref].
  destruct (free_tree [3; 3] h b o1 fb [3] T1 N1 eq_refl) as (h1 & E1 & L1 & A1 & F1). rewrite E1. cbn [hbind].
  apply (tree_apart h h1 _ _ _ _ o1) in T2, T3, T4; auto; try (intros x Hx H; apply D1 in H; tauto).
  destruct (free_tree [3] h1 p o2 fo [] T2 N2 eq_refl) as (h2 & E2 & L2 & A2 & F2). rewrite E2. cbn [hbind].
  apply (tree_apart h1 h2 _ _ _ _ o2) in T3, T4; auto; try (intros x Hx H; apply D2 in H; tauto).
  destruct (free_tree [o_n o] h2 a o3 fn [] T3 N3 eq_refl) as (h3 & E3 & L3 & A3 & F3). rewrite E3. cbn [hbind].
  apply (tree_apart h2 h3 _ _ _ _ o3) in T4; auto; try (intros x Hx H; apply D3 in H; tauto).
  destruct (free_tree [o_n o; 3] h3 c o4 fc [o_n o] T4 N4 eq_refl) as (h4 & E4 & L4 & A4 & F4). rewrite E4.
  exists h4. split; [reflexivity|]. split; [lia|]. split.
  - intros x Hx. rewrite !in_app_iff in Hx. rewrite A4, A3, A2, A1 by tauto. reflexivity.
  - intros x Hx. rewrite !in_app_iff in Hx.
    destruct (in_dec Nat.eq_dec x o4) as [I4|I4]; [now apply F4|]. rewrite A4 by auto.
    destruct (in_dec Nat.eq_dec x o3) as [I3|I3]; [now apply F3|]. rewrite A3 by auto.
    destruct (in_dec Nat.eq_dec x o2) as [I2|I2]; [now apply F2|]. rewrite A2 by auto.
    apply F1. tauto.
Qed.
