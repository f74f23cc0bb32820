(** The memory of whole calls and of programs of calls. *)
From Coq Require Import Permutation.
From Verif Require LifeEnlarge.
From Verif Require Import HeapModel NestModel NestSpec NestProofs Arr SlotModel SlotProofs TildeModel TildeSpec TildeProofs ScratchModel ScratchSpec ScratchProofs.
Open Scope nat_scope.

Lemma table_block l h : nth_error (snd (table l h)) (length h) = Some (Some (ptrs l)) /\ length (snd (table l h)) = S (length h) /\
  agree (fun y => y < length h) h (snd (table l h)).
Proof.
  unfold table, ptrs. cbn [snd]. split; [rewrite nth_error_app2, Nat.sub_diag by lia; reflexivity|].
  split; [rewrite app_length; cbn; lia|]. intros y Hy. now rewrite nth_error_app1.
Qed.
Lemma not_alive_free h b : nth_error h b = Some None -> ~ alive h b.
Proof. intros E [c Hc]. congruence. Qed.
Lemma not_alive_out h b : length h <= b -> ~ alive h b.
Proof. intros E [c Hc]. apply nth_error_None in E. congruence. Qed.
Lemma free_one h b : alive h b -> exists h', hfree h (Some b) = HOk h' /\ length h' = length h /\ agree (fun y => y <> b) h h' /\ ~ alive h' b.
Proof.
  intros Al. rewrite (hfree_ok h b Al). destruct Al as [c Hc]. assert (b < length h) by (apply nth_error_Some; congruence).
  eexists. split; [reflexivity|]. split; [apply replace_length|]. split; [intros y Hy; apply nth_replace_other; congruence|].
  apply not_alive_free. now apply nth_replace_same.
Qed.
Lemma agree_alive P h h' y : agree P h h' -> P y -> (alive h' y <-> alive h y).
Proof. intros A Py. unfold alive. now rewrite (A y Py). Qed.

Section Calls.
Variables (leaf : list nat) (row : vec -> list nat -> Z) (checks : bool).
Variables (inum : nat) (ilist numneigh : list nat) (firstneigh : list (list nat)) (x : list vec) (types : list nat).
Hypothesis leaf_some : leaf <> [].
Notation V := (list nat -> Z).
Notation zero := (fun _ : list nat => 0%Z).

Lemma rel_start n m f : rel leaf (fun o : option V => o) n m (repeat (repeat None m) n) f.
Proof.
  split; [apply repeat_length|]. split; [apply Forall_forall; intros l Hl; apply repeat_spec in Hl; subst; apply repeat_length|].
  intros r c a v idx Hc Hd _. unfold cell in Hc. destruct (nth_error _ r) eqn:Er; [|discriminate].
  apply nth_error_In, repeat_spec in Er. subst. apply nth_error_In, repeat_spec in Hc. now subst.
Qed.

Lemma into_mem tidy b own f n m h centres neighs nnl ncl a' :
  mapM (num_centres inum ilist types) centres = Ok ncl -> n = width ncl -> m = width nnl ->
  tilde_generate row zero inum ilist numneigh firstneigh x types centres neighs nnl = Ok a' ->
  tree h (n :: m :: leaf) b own f -> NoDup own -> (forall y, In y own -> y < length h) ->
  exists h', mem_into leaf row checks inum ilist numneigh firstneigh x types tidy b centres neighs nnl h = HOk h' /\
    length h + 3 <= length h' /\ agree (fun y => y < length h /\ ~ In y own) h h' /\
    (forall y, length h <= y -> (alive h' y <-> tidy = false /\ (y = length h + 1 \/ y = length h + 2))) /\
    exists f', tree h' (n :: m :: leaf) b own f' /\ rel leaf (fun o => o) n m a' f'.
Proof using leaf_some.
  intros M -> -> E T ND Ow. unfold tilde_generate in E. rewrite M in E. cbn [bind] in E. unfold mem_into. rewrite M. cbn [lift hbind].
  destruct (table_block ncl h) as (B1 & L1 & A1). set (h1 := snd (table ncl h)) in *. change (table ncl h) with (length h, h1).
  destruct (table_block (starts ncl) h1) as (B2 & L2 & A2). set (h2 := snd (table (starts ncl) h1)) in *. change (table (starts ncl) h1) with (length h1, h2).
  destruct (table_block (starts nnl) h2) as (B3 & L3 & A3). set (h3 := snd (table (starts nnl) h2)) in *. change (table (starts nnl) h2) with (length h2, h3).
  cbv iota. rewrite L2, L1 in *.
  assert (forall y, length h <= y -> ~ In y own) as Nw by (intros y Hy Hi; apply Ow in Hi; lia).
  assert (agree (fun y => y < length h) h h3) as A03.
  { intros y Hy. rewrite A3 by lia. rewrite A2 by lia. apply A1. exact Hy. }
  destruct (blocks_sim leaf row checks inum ilist numneigh firstneigh x types h3 (width ncl) (width nnl) b own (length h) (S (length h)) (S (S (length h)))
    ncl centres neighs nnl (repeat (repeat None (width nnl)) (width ncl)) a' h3 leaf_some ND) as (h4 & E4 & L4 & A4 & D4 & f4 & T4 & R4).
  { intros y Hy. apply Ow in Hy. lia. }
  { apply Nw. lia. } { apply Nw. lia. } { apply Nw. lia. }
  { rewrite A3 by lia. rewrite A2 by lia. exact B1. }
  { rewrite A3 by lia. exact B2. }
  { exact B3. }
  { exact M. }
  { split; [lia|]. split; [easy|]. split; [intros y Hy; apply not_alive_out, Hy|]. exists f. split; [|apply rel_start].
    eapply tree_frame; [|exact T]. intros y Hy. apply A03, Ow, Hy. }
  { exact E. }
  rewrite E4. cbn [hbind].
  assert (forall y, length h <= y < length h3 -> alive h4 y) as Al.
  { intros y Hy. apply (agree_alive _ _ _ y A4); [split; [lia|apply Nw; lia]|]. assert (y = length h \/ y = S (length h) \/ y = S (S (length h))) as [->|[->| ->]] by lia.
    - exists (ptrs ncl). rewrite A3 by lia. rewrite A2 by lia. exact B1.
    - exists (ptrs (starts ncl)). rewrite A3 by lia. exact B2.
    - exists (ptrs (starts nnl)). exact B3. }
  destruct (free_one h4 (length h)) as (h5 & E5 & L5 & A5 & D5); [apply Al; lia|]. rewrite E5. cbn [hbind].
  assert (tree h5 (width ncl :: width nnl :: leaf) b own f4) as T5.
  { eapply tree_frame; [|exact T4]. intros y Hy. apply A5. intros ->. apply Ow in Hy. lia. }
  assert (agree (fun y => y < length h /\ ~ In y own) h h5) as A05.
  { intros y [Hy Hn]. rewrite A5 by lia. rewrite A4 by (split; [lia|exact Hn]). apply A03, Hy. }
  destruct tidy.
  - destruct (free_one h5 (S (length h))) as (h6 & E6 & L6 & A6 & D6).
    { apply (agree_alive _ _ _ _ A5); [lia|]. apply Al. lia. }
    rewrite E6. cbn [hbind].
    destruct (free_one h6 (S (S (length h)))) as (h7 & E7 & L7 & A7 & D7).
    { apply (agree_alive _ _ _ _ A6); [lia|]. apply (agree_alive _ _ _ _ A5); [lia|]. apply Al. lia. }
    exists h7. split; [exact E7|]. split; [lia|]. split; [|split].
    + intros y Hy. rewrite A7 by lia. rewrite A6 by lia. apply A05, Hy.
    + intros y Hy. split; [|intros [? _]; discriminate]. intros Ha. exfalso.
      destruct (Nat.eq_dec y (S (S (length h)))) as [->|N3]; [easy|]. apply (agree_alive _ _ _ _ A7 N3) in Ha.
      destruct (Nat.eq_dec y (S (length h))) as [->|N2]; [easy|]. apply (agree_alive _ _ _ _ A6 N2) in Ha.
      destruct (Nat.eq_dec y (length h)) as [->|N1]; [easy|]. apply (agree_alive _ _ _ _ A5 N1) in Ha.
      apply (D4 y); [lia|exact Ha].
    + exists f4. split; [|exact R4]. eapply tree_frame; [|exact T5]. intros y Hy. apply Ow in Hy. rewrite A7 by lia. apply A6. lia.
  - exists h5. split; [reflexivity|]. split; [lia|]. split; [exact A05|]. split; [|eauto].
    intros y Hy. split.
    + intros Ha. split; [reflexivity|]. destruct (Nat.eq_dec y (length h)) as [->|N1]; [easy|]. apply (agree_alive _ _ _ _ A5 N1) in Ha.
      destruct (Nat.lt_ge_cases y (length h3)) as [Hlt|Hge]; [lia|]. destruct (D4 y Hge Ha).
    + intros [_ Hc]. apply (agree_alive _ _ _ _ A5); [lia|]. apply Al. lia.
Qed.

Lemma new_mem init n m h centres neighs nnl ncl a' :
  mapM (num_centres inum ilist types) centres = Ok ncl -> n = width ncl -> m = width nnl ->
  tilde_generate row zero inum ilist numneigh firstneigh x types centres neighs nnl = Ok a' ->
  exists h', mem_new leaf row checks inum ilist numneigh firstneigh x types init centres neighs nnl h = HOk (S (length h), h') /\
    length h + 3 + block_count (n :: m :: leaf) <= length h' /\ agree (fun y => y < length h) h h' /\
    (forall y, length h <= y -> (alive h' y <-> In y (seq (S (length h)) (block_count (n :: m :: leaf))))) /\
    exists f', tree h' (n :: m :: leaf) (S (length h)) (seq (S (length h)) (block_count (n :: m :: leaf))) f' /\ rel leaf (fun o => o) n m a' f'.
Proof using leaf_some.
  intros M -> -> E. unfold tilde_generate in E. rewrite M in E. cbn [bind] in E. unfold mem_new. rewrite M. cbn [lift hbind].
  destruct (table_block ncl h) as (B1 & L1 & A1). set (h1 := snd (table ncl h)) in *. change (table ncl h) with (length h, h1). cbv iota.
  set (dims := width ncl :: width nnl :: leaf) in *.
  destruct (allocate_tree dims init h1 ltac:(discriminate)) as (h1' & E1' & L1' & A1' & T1'). rewrite E1'. cbn [hbind].
  destruct (table_block (starts ncl) h1') as (B2 & L2 & A2). set (h2 := snd (table (starts ncl) h1')) in *. change (table (starts ncl) h1') with (length h1', h2).
  destruct (table_block (starts nnl) h2) as (B3 & L3 & A3). set (h3 := snd (table (starts nnl) h2)) in *. change (table (starts nnl) h2) with (length h2, h3).
  cbv iota. rewrite L1 in *. set (own := seq (S (length h)) (block_count dims)) in *.
  assert (forall y, In y own <-> S (length h) <= y < length h1') as Ow by (intros y; unfold own; rewrite in_seq; lia).
  assert (NoDup own) as ND by apply seq_NoDup.
  assert (agree (fun y => y < length h1') h1' h3) as A13 by (intros y Hy; rewrite A3 by lia; apply A2; exact Hy).
  assert (agree (fun y => y < length h) h h3) as A03.
  { intros y Hy. rewrite A13 by lia. rewrite A1' by lia. apply A1. exact Hy. }
  destruct (blocks_sim leaf row checks inum ilist numneigh firstneigh x types h3 (width ncl) (width nnl) (S (length h)) own (length h) (length h1') (length h2)
    ncl centres neighs nnl (repeat (repeat None (width nnl)) (width ncl)) a' h3 leaf_some ND) as (h4 & E4 & L4 & A4 & D4 & f4 & T4 & R4).
  { intros y Hy. apply Ow in Hy. lia. }
  { rewrite Ow. lia. } { rewrite Ow. lia. } { rewrite Ow. lia. }
  { rewrite A13 by lia. rewrite A1' by lia. exact B1. }
  { rewrite A3 by lia. exact B2. }
  { exact B3. }
  { exact M. }
  { split; [lia|]. split; [easy|]. split; [intros y Hy; apply not_alive_out, Hy|]. eexists. split; [|apply rel_start].
    eapply tree_frame; [|exact T1']. intros y Hy. apply A13. apply Ow in Hy. lia. }
  { exact E. }
  rewrite E4. cbn [hbind].
  assert (forall y, y = length h \/ y = length h1' \/ y = length h2 -> alive h4 y) as Al.
  { intros y Hy. apply (agree_alive _ _ _ y A4); [rewrite Ow; lia|]. destruct Hy as [->|[->| ->]].
    - exists (ptrs ncl). rewrite A13 by lia. rewrite A1' by lia. exact B1.
    - exists (ptrs (starts ncl)). rewrite A3 by lia. exact B2.
    - exists (ptrs (starts nnl)). exact B3. }
  destruct (free_one h4 (length h)) as (h5 & E5 & L5 & A5 & D5); [apply Al; auto|]. rewrite E5. cbn [hbind].
  destruct (free_one h5 (length h1')) as (h6 & E6 & L6 & A6 & D6).
  { apply (agree_alive _ _ _ _ A5); [lia|]. apply Al. auto. }
  rewrite E6. cbn [hbind].
  destruct (free_one h6 (length h2)) as (h7 & E7 & L7 & A7 & D7).
  { apply (agree_alive _ _ _ _ A6); [lia|]. apply (agree_alive _ _ _ _ A5); [lia|]. apply Al. auto. }
  rewrite E7. cbn [hbind].
  assert (tree h7 dims (S (length h)) own f4) as T7.
  { eapply tree_frame; [|exact T4]. intros y Hy. apply Ow in Hy. rewrite A7 by lia. rewrite A6 by lia. apply A5. lia. }
  exists h7. split; [reflexivity|]. split; [lia|]. split; [|split; [|eauto]].
  - intros y Hy. rewrite A7 by lia. rewrite A6 by lia. rewrite A5 by lia. rewrite A4 by (rewrite Ow; lia). apply A03, Hy.
  - intros y Hy. split; [|intros Hi; eapply tree_alive; eauto]. intros Ha.
    destruct (Nat.eq_dec y (length h2)) as [->|N3]; [easy|]. apply (agree_alive _ _ _ _ A7 N3) in Ha.
    destruct (Nat.eq_dec y (length h1')) as [->|N2]; [easy|]. apply (agree_alive _ _ _ _ A6 N2) in Ha.
    destruct (Nat.eq_dec y (length h)) as [->|N1]; [easy|]. apply (agree_alive _ _ _ _ A5 N1) in Ha.
    destruct (Nat.lt_ge_cases y (length h3)) as [Hlt|Hge]; [apply Ow; lia|]. destruct (D4 y Hge Ha).
Qed.
End Calls.

(** ** The functions and their arguments *)
Lemma counted a : fits a -> mapM (num_centres (a_inum a) (a_ilist a) (a_types a)) (a_centres a) =
  Ok (map (fun ca => length (centres_of_type (a_inum a) (a_ilist a) (a_types a) ca)) (a_centres a)).
Proof.
  intros (Hok & _). induction (a_centres a) as [|ca l IH]; [reflexivity|]. cbn [mapM map]. rewrite (num_centres_ok _ _ _ _ _ _ Hok). cbn [bind]. rewrite IH. reflexivity.
Qed.
Lemma values row a : fits a ->
  tilde_generate row (fun _ => 0%Z) (a_inum a) (a_ilist a) (a_numneigh a) (a_firstneigh a) (a_x a) (a_types a) (a_centres a) (a_neighs a) (a_nnl a) =
  Ok (map (map Some) (matrix row a)).
Proof. intros (Hok & L & R). exact (tilde_generate_ok row zeros _ _ _ _ _ _ Hok _ _ _ L R). Qed.
Lemma holds_rel h b own f leaf t n m : tree h (n :: m :: leaf) b own f -> rel leaf (fun o => o) n m (map (map Some) t) f -> holds h b leaf t.
Proof.
  intros T (Ln & F & C) r c idx Hr Hc Hw. rewrite map_length in Ln.
  assert (length (nth r t []) = m) as Lm.
  { rewrite Forall_forall in F. rewrite <- (F (map Some (nth r t []))) by (apply in_map, nth_In; lia). symmetry. apply map_length. }
  pose proof (read_spec (n :: m :: leaf) h b own f (r :: c :: idx) T ltac:(constructor; [lia|constructor; [lia|exact Hw]])) as G.
  unfold gives in G. rewrite G. rewrite (C r c (Some (nth c (nth r t []) zeros)) (nth c (nth r t []) zeros) idx); auto.
  unfold cell. rewrite nth_error_map, (nth_error_nth' t [] Hr). cbn [option_map]. rewrite nth_error_map, (nth_error_nth' _ zeros Hc). reflexivity.
Qed.

(** ** Blocks in use *)
Lemma in_use_alive h b : In b (in_use h) <-> alive h b.
Proof.
  unfold in_use, alive. rewrite filter_In, in_seq. split.
  - intros [_ H]. destruct (nth_error h b) as [[c|]|]; try discriminate. eauto.
  - intros [c Hc]. rewrite Hc. split; [|reflexivity]. split; [lia|]. cbn. apply nth_error_Some. congruence.
Qed.
Lemma in_use_nodup h : NoDup (in_use h).
Proof. apply NoDup_filter, seq_NoDup. Qed.
Lemma in_use_more h h' L : NoDup L -> (forall y, In y L -> length h <= y) -> agree (fun y => y < length h) h h' ->
  (forall y, length h <= y -> (alive h' y <-> In y L)) -> length (in_use h') = length (in_use h) + length L.
Proof.
  intros ND HL A H. rewrite <- app_length. apply Permutation_length, NoDup_Permutation.
  - apply in_use_nodup.
  - apply LifeEnlarge.NoDup_app_disjoint; [apply in_use_nodup|exact ND|]. intros y Hy Hl. apply in_use_alive in Hy. destruct Hy as [c Hc].
    assert (y < length h) by (apply nth_error_Some; congruence). apply HL in Hl. lia.
  - intros y. rewrite in_app_iff, !in_use_alive. destruct (Nat.lt_ge_cases y (length h)) as [Hlt|Hge].
    + rewrite (agree_alive _ _ _ y A Hlt). split; [auto|]. intros [Ha|Hl]; [exact Ha|]. apply HL in Hl. lia.
    + rewrite (H y Hge). split; [auto|]. intros [Ha|Hl]; [|exact Hl]. destruct (not_alive_out h y Hge Ha).
Qed.

(** ** Whole calls *)
Lemma widths a : fits a -> width (map (fun ca => length (centres_of_type (a_inum a) (a_ilist a) (a_types a) ca)) (a_centres a)) = rows_of a /\ width (a_nnl a) = cols_of a.
Proof. intros _. rewrite !width_sum. split; reflexivity. Qed.

Lemma new_call leaf row checks init a h : leaf <> [] -> fits a ->
  exists b h1, mem_new leaf row checks (a_inum a) (a_ilist a) (a_numneigh a) (a_firstneigh a) (a_x a) (a_types a) init (a_centres a) (a_neighs a) (a_nnl a) h = HOk (b, h1) /\
    firstn (length h) h1 = h /\ holds h1 b leaf (matrix row a) /\
    length (in_use h1) = length (in_use h) + block_count (rows_of a :: cols_of a :: leaf) /\
    exists h2, free_nested (removelast (rows_of a :: cols_of a :: leaf)) h1 b = HOk h2 /\ restored h h2.
Proof.
  intros Hl Hf. destruct (widths a Hf) as [W1 W2].
  destruct (new_mem leaf row checks _ _ (a_numneigh a) (a_firstneigh a) (a_x a) _ Hl init (rows_of a) (cols_of a) h _ (a_neighs a) (a_nnl a) _ _ (counted a Hf) (eq_sym W1) (eq_sym W2) (values row a Hf))
    as (h1 & E & L & A & D & f & T & R).
  exists (S (length h)), h1. split; [exact E|]. split; [apply agree_firstn; [lia|exact A]|]. split; [eapply holds_rel; eauto|].
  set (own := seq (S (length h)) (block_count (rows_of a :: cols_of a :: leaf))) in *.
  split.
  - rewrite (in_use_more h h1 own); [unfold own; now rewrite seq_length|apply seq_NoDup|intros y Hy; apply in_seq in Hy; lia|exact A|exact D].
  - destruct (free_spec _ _ _ _ _ T (seq_NoDup _ _)) as (h2 & E2 & L2 & A2 & F2). exists h2. split; [exact E2|]. split.
    + apply agree_firstn; [lia|]. intros y Hy. rewrite A2 by (unfold own; rewrite in_seq; lia). apply A, Hy.
    + intros y Hy Ha. destruct (in_dec Nat.eq_dec y own) as [Hi|Hn]; [exact (not_alive_free _ _ (F2 y Hi) Ha)|].
      apply (agree_alive _ _ _ y A2 Hn) in Ha. apply Hn. apply (D y Hy). exact Ha.
Qed.

Lemma into_call leaf row checks tidy a h init l b h1 h2 : leaf <> [] -> fits a ->
  Forall (fun e => within (rows_of a :: cols_of a :: leaf) (fst e)) l ->
  allocate_nested (rows_of a :: cols_of a :: leaf) init h = HOk (b, h1) -> writes h1 b l = HOk h2 ->
  exists h3 h4, mem_into leaf row checks (a_inum a) (a_ilist a) (a_numneigh a) (a_firstneigh a) (a_x a) (a_types a) tidy b (a_centres a) (a_neighs a) (a_nnl a) h2 = HOk h3 /\
    holds h3 b leaf (matrix row a) /\ free_nested (removelast (rows_of a :: cols_of a :: leaf)) h3 b = HOk h4 /\
    firstn (length h) h4 = h /\ (tidy = true -> restored h h4) /\ length (in_use h4) = length (in_use h) + (if tidy then 0 else 2).
Proof.
  intros Hl Hf Hw E1 E2. destruct (widths a Hf) as [W1 W2]. set (dims := rows_of a :: cols_of a :: leaf) in *.
  destruct (allocate_tree dims init h ltac:(discriminate)) as (h1' & E1' & L1 & A1 & T1).
  assert (b = length h /\ h1 = h1') as [-> ->] by (split; congruence).
  destruct (writes_tree _ _ l _ _ _ T1 (seq_NoDup _ _) Hw) as (h2' & E2' & L2 & A2 & T2).
  assert (h2 = h2') as -> by congruence. clear E1' E2'. set (own := seq (length h) (block_count dims)) in *.
  assert (forall y, In y own <-> length h <= y < length h2') as Ow by (intros y; unfold own; rewrite in_seq; lia).
  destruct (into_mem leaf row checks _ _ (a_numneigh a) (a_firstneigh a) (a_x a) _ Hl tidy (length h) own _ (rows_of a) (cols_of a) h2' _ (a_neighs a) (a_nnl a) _ _
    (counted a Hf) (eq_sym W1) (eq_sym W2) (values row a Hf) T2 (seq_NoDup _ _)) as (h3 & E3 & L3 & A3 & D3 & f3 & T3 & R3).
  { intros y Hy. apply Ow in Hy. lia. }
  destruct (free_spec _ _ _ _ _ T3 (seq_NoDup _ _)) as (h4 & E4 & L4 & A4 & F4).
  assert (agree (fun y => y < length h) h h4) as A04.
  { intros y Hy. rewrite A4 by (unfold own; rewrite in_seq; lia). rewrite A3 by (rewrite Ow; lia). rewrite A2 by (unfold own; rewrite in_seq; lia). apply A1, Hy. }
  assert (forall y, length h <= y -> (alive h4 y <-> tidy = false /\ (y = length h2' + 1 \/ y = length h2' + 2))) as D4.
  { intros y Hy. destruct (in_dec Nat.eq_dec y own) as [Hi|Hn].
    - split; [intros Ha; destruct (not_alive_free _ _ (F4 y Hi) Ha)|]. intros [_ Hc]. apply Ow in Hi. lia.
    - rewrite (agree_alive _ _ _ y A4 Hn). apply D3. rewrite Ow in Hn. lia. }
  exists h3, h4. split; [exact E3|]. split; [eapply holds_rel; eauto|]. split; [exact E4|].
  assert (firstn (length h) h4 = h) as Fn by (apply agree_firstn; [lia|exact A04]). split; [exact Fn|]. split.
  - intros ->. split; [exact Fn|]. intros y Hy Ha. apply (D4 y Hy) in Ha. destruct Ha. discriminate.
  - rewrite (in_use_more h h4 (if tidy then [] else [length h2' + 1; length h2' + 2])); [destruct tidy; reflexivity| | |exact A04|].
    + destruct tidy; [constructor|]. constructor; [cbn; lia|]. constructor; [easy|constructor].
    + intros y Hy. destruct tidy; [easy|]. cbn in Hy. lia.
    + intros y Hy. rewrite (D4 y Hy). destruct tidy; cbn; split; intros Hc; [destruct Hc; discriminate|easy|destruct Hc as [_ [Hc|Hc]]; auto|split; [reflexivity|]; lia].
Qed.

Lemma in_use_restored h h' : restored h h' -> length (in_use h') = length (in_use h).
Proof.
  intros [F D]. rewrite (in_use_more h h' []); [cbn; lia|constructor|easy| |].
  - intros y Hy. rewrite <- (firstn_skipn (length h) h'), F. now rewrite nth_error_app1.
  - intros y Hy. split; [intros Ha; exact (D y Hy Ha)|easy].
Qed.

(** ** The four functions *)
Lemma generate_call a h : fits a -> exists b h1, generate a h = HOk (b, h1) /\
  firstn (length h) h1 = h /\ holds h1 b [4] (matrix (a_value a) a) /\
  length (in_use h1) = length (in_use h) + block_count [rows_of a; cols_of a; 4] /\
  exists h2, free3dArray b (rows_of a) (cols_of a) h1 = HOk h2 /\ restored h h2.
Proof. intros Hf. exact (new_call [4] (a_value a) false false a h ltac:(discriminate) Hf). Qed.
Lemma deriv_call a h : fits a -> exists b h1, deriv a h = HOk (b, h1) /\
  firstn (length h) h1 = h /\ holds h1 b [4; 3] (matrix (a_deriv a) a) /\
  length (in_use h1) = length (in_use h) + block_count [rows_of a; cols_of a; 4; 3] /\
  exists h2, free4dArray b (rows_of a) (cols_of a) 4 h1 = HOk h2 /\ restored h h2.
Proof. intros Hf. exact (new_call [4; 3] (a_deriv a) true true a h ltac:(discriminate) Hf). Qed.
Lemma generate_into_call a h init l b h1 h2 : fits a -> Forall (fun e => within [rows_of a; cols_of a; 4] (fst e)) l ->
  allocate3dArray (rows_of a) (cols_of a) 4 init h = HOk (b, h1) -> writes h1 b l = HOk h2 ->
  exists h3 h4, generate_into a b h2 = HOk h3 /\ holds h3 b [4] (matrix (a_value a) a) /\
    free3dArray b (rows_of a) (cols_of a) h3 = HOk h4 /\ restored h h4.
Proof.
  intros Hf Hw E1 E2. destruct (into_call [4] (a_value a) false true a h init l b h1 h2 ltac:(discriminate) Hf Hw E1 E2) as (h3 & h4 & E3 & H & E4 & _ & R & _).
  exists h3, h4. repeat (split; [assumption|]). auto.
Qed.
Lemma deriv_into_call a h init l b h1 h2 : fits a -> Forall (fun e => within [rows_of a; cols_of a; 4; 3] (fst e)) l ->
  allocate4dArray (rows_of a) (cols_of a) 4 3 init h = HOk (b, h1) -> writes h1 b l = HOk h2 ->
  exists h3 h4, deriv_into a b h2 = HOk h3 /\ holds h3 b [4; 3] (matrix (a_deriv a) a) /\
    free4dArray b (rows_of a) (cols_of a) 4 h3 = HOk h4 /\ firstn (length h) h4 = h /\ length (in_use h4) = length (in_use h) + 2.
Proof.
  intros Hf Hw E1 E2. destruct (into_call [4; 3] (a_deriv a) true false a h init l b h1 h2 ltac:(discriminate) Hf Hw E1 E2) as (h3 & h4 & E3 & H & E4 & F & _ & N).
  exists h3, h4. repeat (split; [assumption|]). exact N.
Qed.

(** ** Programs *)
Lemma step_mem c h : careful c -> exists h', step h c = HOk h' /\ firstn (length h) h' = h /\
  length (in_use h') = length (in_use h) + (if fills_derivatives c then 2 else 0).
Proof.
  intros Hc. destruct c as [a n m|a n m|a n m|a n m]; destruct Hc as (Hf & -> & ->); cbn [step fills_derivatives].
  - destruct (generate_call a h Hf) as (b & h1 & E & _ & _ & _ & h2 & E2 & R). exists h2. rewrite E. cbn [hbind]. split; [exact E2|].
    split; [exact (proj1 R)|]. rewrite (in_use_restored _ _ R). lia.
  - destruct (deriv_call a h Hf) as (b & h1 & E & _ & _ & _ & h2 & E2 & R). exists h2. rewrite E. cbn [hbind]. split; [exact E2|].
    split; [exact (proj1 R)|]. rewrite (in_use_restored _ _ R). lia.
  - destruct (allocate_tree [rows_of a; cols_of a; 4] true h ltac:(discriminate)) as (h1 & E1 & _).
    destruct (generate_into_call a h true [] (length h) h1 h1 Hf (Forall_nil _) E1 eq_refl) as (h3 & h4 & E3 & _ & E4 & R).
    exists h4. unfold allocate3dArray. rewrite E1. cbn [hbind]. rewrite E3. cbn [hbind]. split; [exact E4|].
    split; [exact (proj1 R)|]. rewrite (in_use_restored _ _ R). lia.
  - destruct (allocate_tree [rows_of a; cols_of a; 4; 3] true h ltac:(discriminate)) as (h1 & E1 & _).
    destruct (deriv_into_call a h true [] (length h) h1 h1 Hf (Forall_nil _) E1 eq_refl) as (h3 & h4 & E3 & _ & E4 & F & N).
    exists h4. unfold allocate4dArray. rewrite E1. cbn [hbind]. rewrite E3. cbn [hbind]. auto.
Qed.
Lemma firstn_trans {A} (h h1 h2 : list A) : firstn (length h) h1 = h -> firstn (length h1) h2 = h1 -> firstn (length h) h2 = h.
Proof.
  intros E1 E2. rewrite <- E2 in E1. rewrite firstn_firstn in E1. assert (length h <= length h1) as Hl.
  { assert (length (firstn (length h) (firstn (length h1) h2)) = length h) as Hl by now rewrite firstn_firstn, E1. rewrite E2, firstn_length in Hl. lia. }
  rewrite Nat.min_l in E1 by exact Hl. exact E1.
Qed.
Lemma calls_mem l : forall h, Forall careful l -> exists h', calls l h = HOk h' /\ firstn (length h) h' = h /\
  length (in_use h') = length (in_use h) + 2 * length (filter fills_derivatives l).
Proof.
  induction l as [|c l IH]; intros h Hl.
  - exists h. split; [reflexivity|]. split; [apply firstn_all|cbn; lia].
  - inversion Hl as [|? ? Hc Hr]; subst. destruct (step_mem c h Hc) as (h1 & E1 & F1 & N1). destruct (IH h1 Hr) as (h2 & E2 & F2 & N2).
    exists h2. unfold calls in *. cbn [hfold]. rewrite E1. cbn [hbind]. split; [exact E2|]. split; [eapply firstn_trans; eauto|].
    rewrite N2, N1. cbn [filter]. destruct (fills_derivatives c); cbn [length]; lia.
Qed.
Lemma filter_repeat {A} (f : A -> bool) c k : f c = true -> length (filter f (repeat c k)) = k.
Proof. intros H. induction k as [|k IH]; [reflexivity|]. cbn [repeat filter]. rewrite H. cbn [length]. now rewrite IH. Qed.
Lemma calls_grow a n m k h : sized a n m -> exists h', calls (repeat (DerivInto a n m) k) h = HOk h' /\ length (in_use h') = length (in_use h) + 2 * k.
Proof.
  intros Hs. destruct (calls_mem (repeat (DerivInto a n m) k) h) as (h' & E & _ & N).
  { apply Forall_forall. intros c Hc. apply repeat_spec in Hc. now subst. }
  exists h'. split; [exact E|]. now rewrite filter_repeat in N by reflexivity.
Qed.
