(** Proofs about nested arrays: ownership of blocks and contents as a function of the index. *)
From Verif Require Import NestModel NestSpec.
Local Open Scope nat_scope.
Local Open Scope list_scope.

(** ** Lists and heaps *)
Lemma nth_replace_same {A} (l : list A) i x : i < length l -> nth_error (replace l i x) i = Some x.
Proof. revert i; induction l as [|y l IH]; intros [|i] H; cbn in *; try lia; auto. apply IH; lia. Qed.
Lemma nth_replace_other {A} (l : list A) i j x : i <> j -> nth_error (replace l i x) j = nth_error l j.
Proof. revert i j; induction l as [|y l IH]; intros [|i] [|j] H; cbn; auto; try lia. Qed.
Lemma replace_length {A} (l : list A) i x : length (replace l i x) = length l.
Proof. revert i; induction l as [|y l IH]; intros [|i]; cbn; auto. Qed.

Lemma hfold_app {A S} (f : S -> A -> hres S) l1 l2 s : hfold f (l1 ++ l2) s = hbind (hfold f l1 s) (hfold f l2).
Proof. revert s; induction l1 as [|x l1 IH]; intros s; cbn; auto. destruct (f s x); cbn; auto. Qed.
Lemma hfold_inv {S} (f : S -> nat -> hres S) (I : nat -> S -> Prop) n s :
  I 0 s -> (forall i s, i < n -> I i s -> exists s', f s i = HOk s' /\ I (Datatypes.S i) s') ->
  exists s', hfold f (seq 0 n) s = HOk s' /\ I n s'.
Proof.
  intros H0 Hs. induction n as [|n IH]; [exists s; split; auto|].
  destruct IH as [s1 [E1 I1]]; [intros; apply Hs; auto; lia|].
  destruct (Hs n s1) as [s2 [E2 I2]]; [lia|auto|].
  exists s2. split; auto. rewrite seq_S, hfold_app, E1. cbn. now rewrite E2.
Qed.
Lemma hfold_part {S} (f : S -> nat -> hres S) (I : nat -> S -> Prop) n s s' :
  I 0 s -> (forall i s s1, i < n -> I i s -> f s i = HOk s1 -> I (Datatypes.S i) s1) ->
  hfold f (seq 0 n) s = HOk s' -> I n s'.
Proof.
  intros H0 Hs. revert s'. induction n as [|n IH]; intros s' E; [cbn in E; congruence|].
  rewrite seq_S, hfold_app in E. destruct (hfold f (seq 0 n) s) as [s1|] eqn:E1; cbn in E; [|discriminate].
  destruct (f s1 n) as [s2|] eqn:E2; cbn in E; [|discriminate].
  assert (s2 = s') by congruence. subst. eapply Hs; eauto.
Qed.

(** [nth_error] as a heap of blocks: agreement on a set. *)
Definition agree (P : nat -> Prop) (h h' : heap) : Prop := forall b, P b -> nth_error h' b = nth_error h b.

(** ** Ownership: [tree h dims b own f]: block [b] is the root of an array of sizes [dims]
    made of the blocks [own]; its element at [idx] is [f idx]. *)
Definition ptrs (qs : list nat) : list (option Z) := map (fun q => Some (Z.of_nat q)) qs.
Fixpoint tree (h : heap) (dims : list nat) (b : nat) (own : list nat) (f : list nat -> option Z) : Prop :=
  match dims with
  | [] => False
  | n :: r =>
    match r with
    | [] => own = [b] /\ nth_error h b = Some (Some (map (fun i => f [i]) (seq 0 n)))
    | _ :: _ => exists qs owns, length qs = n /\ length owns = n /\ own = b :: concat owns /\
        nth_error h b = Some (Some (ptrs qs)) /\
        forall i, i < n -> tree h r (nth i qs 0) (nth i owns []) (fun idx => f (i :: idx))
    end
  end.

Lemma in_concat_nth {A} (ls : list (list A)) i x : i < length ls -> In x (nth i ls []) -> In x (concat ls).
Proof. intros Hi Hx. apply in_concat. exists (nth i ls []). split; auto. now apply nth_In. Qed.

Lemma tree_ext h dims : forall b own f g, (forall idx, within dims idx -> f idx = g idx) -> tree h dims b own f -> tree h dims b own g.
Proof.
  induction dims as [|n r IH]; intros b own f g Hfg T; [exact T|].
  destruct r as [|m r].
  - destruct T as [Ho Hb]. split; auto. rewrite Hb. do 2 f_equal. apply map_ext_in.
    intros i Hi. apply in_seq in Hi. apply Hfg. repeat constructor; lia.
  - destruct T as (qs & owns & L1 & L2 & Ho & Hb & Ht). exists qs, owns. repeat split; auto.
    intros i Hi. eapply IH; [|apply Ht; auto]. intros idx Hx. apply Hfg. constructor; auto.
Qed.
Lemma tree_frame dims : forall h h' b own f, agree (fun x => In x own) h h' -> tree h dims b own f -> tree h' dims b own f.
Proof.
  induction dims as [|n r IH]; intros h h' b own f Ha T; [exact T|].
  destruct r as [|m r].
  - destruct T as [Ho Hb]. split; auto. rewrite Ha; auto. subst; cbn; auto.
  - destruct T as (qs & owns & L1 & L2 & Ho & Hb & Ht). exists qs, owns. repeat split; auto.
    + rewrite Ha; auto. subst own; cbn; auto.
    + intros i Hi. eapply IH; [|apply Ht; auto]. intros x Hx. apply Ha. subst own. right. eapply in_concat_nth; eauto. lia.
Qed.
Lemma tree_root h dims b own f : tree h dims b own f -> In b own.
Proof.
  destruct dims as [|n [|m r]]; cbn [tree]; [easy| |].
  - intros [-> _]; now left.
  - intros (qs & owns & _ & _ & -> & _); now left.
Qed.
Lemma tree_alive dims : forall h b own f x, tree h dims b own f -> In x own -> alive h x.
Proof.
  induction dims as [|n r IH]; intros h b own f x T Hx; [easy|].
  destruct r as [|m r].
  - destruct T as [-> Hb]. destruct Hx as [->|[]]. eexists; eauto.
  - destruct T as (qs & owns & L1 & L2 & -> & Hb & Ht). destruct Hx as [->|Hx]; [eexists; eauto|].
    apply in_concat in Hx. destruct Hx as (o & Ho & Hx). destruct (In_nth _ _ [] Ho) as (i & Hi & Ei).
    eapply IH; [apply (Ht i); lia|]. now rewrite Ei.
Qed.

Lemma ptr_read h b qs i : nth_error h b = Some (Some (ptrs qs)) -> i < length qs -> load_ptr h b i = HOk (nth i qs 0).
Proof.
  intros Hb Hi. unfold load_ptr, load. cbn [block_of]. rewrite Hb. cbn [hbind].
  unfold ptrs. rewrite nth_error_map. rewrite (nth_error_nth' qs 0 Hi). cbn [option_map hbind]. now rewrite Nat2Z.id.
Qed.
Lemma ptr_out h b qs i : nth_error h b = Some (Some (ptrs qs)) -> length qs <= i -> load_ptr h b i = HErr OutOfBounds.
Proof.
  intros Hb Hi. unfold load_ptr, load. cbn [block_of]. rewrite Hb. cbn [hbind].
  replace (nth_error (ptrs qs) i) with (@None (option Z)); auto.
  symmetry. apply nth_error_None. unfold ptrs. now rewrite map_length.
Qed.

Lemma NoDup_app_parts {A} (l1 l2 : list A) : NoDup (l1 ++ l2) -> NoDup l1 /\ NoDup l2 /\ (forall x, In x l1 -> ~ In x l2).
Proof.
  induction l1 as [|y l1 IH]; cbn; intros H; [repeat split; auto; constructor|].
  inversion H as [|? ? Hn Hd]; subst. destruct (IH Hd) as (H1 & H2 & H3). repeat split; auto.
  - constructor; auto. intros Hy. apply Hn. apply in_app_iff; auto.
  - intros x [->|Hx] Hx2; [apply Hn, in_app_iff; auto|eapply H3; eauto].
Qed.
Lemma NoDup_concat_nth {A} (ls : list (list A)) : NoDup (concat ls) ->
  (forall i, NoDup (nth i ls [])) /\ (forall i j x, i <> j -> In x (nth i ls []) -> ~ In x (nth j ls [])).
Proof.
  induction ls as [|l ls IH]; cbn; intros H.
  - split; [intros [|i]; constructor|intros [|i] j x _ []].
  - apply NoDup_app_parts in H. destruct H as (H1 & H2 & H3). destruct (IH H2) as [I1 I2]. split.
    + intros [|i]; auto.
    + assert (forall i x, In x (nth i ls []) -> In x (concat ls)) as Hin.
      { intros i x Hx. destruct (Nat.lt_ge_cases i (length ls)); [eapply in_concat_nth; eauto|].
        rewrite nth_overflow in Hx by lia. easy. }
      intros [|i] [|j] x Hij Hx Hy; try lia.
      * apply (H3 x Hx). eapply Hin; eauto.
      * apply (H3 x Hy). eapply Hin; eauto.
      * apply (I2 i j x); auto.
Qed.

(** ** Allocation *)
Lemma store_ok h b i v c : nth_error h b = Some (Some c) -> i < length c ->
  store h (Some b) i v = HOk (replace h b (Some (replace c i (Some v)))).
Proof. intros Hb Hi. unfold store. cbn [block_of]. rewrite Hb. cbn [hbind]. apply Nat.ltb_lt in Hi. now rewrite Hi. Qed.

Lemma replace_repeat (qs : list nat) k (q : nat) :
  replace (ptrs qs ++ repeat None (S k)) (length qs) (Some (Z.of_nat q)) = ptrs (qs ++ [q]) ++ repeat None k.
Proof.
  induction qs as [|x qs IH]; [reflexivity|].
  change (ptrs (x :: qs)) with (Some (Z.of_nat x) :: ptrs qs). cbn [app length replace]. rewrite IH. reflexivity.
Qed.
Lemma map_const_repeat {B} n (c : B) k : map (fun _ => c) (seq k n) = repeat c n.
Proof. revert k; induction n as [|n IH]; intros k; cbn; auto. now rewrite IH. Qed.

Lemma fill_spec dims : forall h b, dims <> [] -> nth_error h b = Some (Some (repeat None (hd 0 dims))) ->
  exists h', fill dims h b = HOk h' /\ length h' = length h + (block_count dims - 1) /\
    agree (fun x => x <> b /\ x < length h) h h' /\
    tree h' dims b (b :: seq (length h) (block_count dims - 1)) (fun _ => None).
Proof.
  induction dims as [|n r IH]; intros h b Hne Hb; [easy|]. clear Hne.
  assert (b < length h) as Hlt by (apply nth_error_Some; congruence).
  destruct r as [|m r].
  - exists h. cbn [fill block_count]. rewrite Nat.mul_0_r. cbn [Nat.sub Nat.add seq].
    repeat split; auto. cbn [hd] in Hb. rewrite Hb. now rewrite map_const_repeat.
  - set (K := block_count (m :: r)) in *.
    assert (1 <= K) as HK by (unfold K; cbn [block_count]; lia).
    cbn [hd] in Hb.
    set (body := fun (h0 : heap) (ii : nat) => hbind (store (h0 ++ [Some (repeat None m)]) (Some b) ii (Z.of_nat (length h0)))
              (fun h2 => hbind (load_ptr h2 b ii) (fun q => fill (m :: r) h2 q))).
    destruct (hfold_inv body
      (fun k hk => exists qs owns, length qs = k /\ length owns = k /\ length hk = length h + k * K /\
          concat owns = seq (length h) (k * K) /\
          nth_error hk b = Some (Some (ptrs qs ++ repeat None (n - k))) /\
          agree (fun x => x <> b /\ x < length h) h hk /\
          forall i, i < k -> tree hk (m :: r) (nth i qs 0) (nth i owns []) (fun _ => None)) n h)
      as (h' & Eh & qs & owns & L1 & L2 & L3 & Hc & Hq & Ha & Ht).
    + exists [], []. cbn. repeat split; auto; try lia. rewrite Hb. now rewrite Nat.sub_0_r.
    + intros k hk Hk (qs & owns & L1 & L2 & L3 & Hc & Hq & Ha & Ht).
      set (h1 := hk ++ [Some (repeat None m)]).
      assert (b < length hk) as Hbk by (apply nth_error_Some; congruence).
      assert (nth_error h1 b = Some (Some (ptrs qs ++ repeat None (n - k)))) as Hq1
        by (unfold h1; rewrite nth_error_app1; auto).
      assert (k < length (ptrs qs ++ repeat None (n - k))) as Hkl.
      { unfold ptrs. rewrite app_length, map_length, repeat_length. lia. }
      set (q := length hk).
      set (h2 := replace h1 b (Some (ptrs (qs ++ [q]) ++ repeat None (n - S k)))).
      assert (store h1 (Some b) k (Z.of_nat q) = HOk h2) as Es.
      { rewrite (store_ok _ _ _ _ _ Hq1 Hkl). unfold h2. do 3 f_equal.
        replace (n - k) with (S (n - S k)) by lia. pose proof (replace_repeat qs (n - S k) q) as HR. rewrite L1 in HR. exact HR. }
      assert (b < length h1) as Hb1 by (unfold h1; rewrite app_length; cbn; lia).
      assert (nth_error h2 b = Some (Some (ptrs (qs ++ [q]) ++ repeat None (n - S k)))) as Hq2
        by (unfold h2; now rewrite nth_replace_same).
      assert (load_ptr h2 b k = HOk q) as El.
      { unfold load_ptr, load. cbn [block_of]. rewrite Hq2. cbn [hbind].
        rewrite nth_error_app1 by (unfold ptrs; rewrite map_length, app_length; cbn; lia).
        unfold ptrs. rewrite nth_error_map. rewrite nth_error_app2 by lia. rewrite L1, Nat.sub_diag.
        cbn [nth_error option_map hbind]. now rewrite Nat2Z.id. }
      assert (nth_error h2 q = Some (Some (repeat None m))) as Hqq.
      { unfold h2. rewrite nth_replace_other by (unfold q; lia). unfold h1. rewrite nth_error_app2 by (unfold q; lia).
        unfold q. now rewrite Nat.sub_diag. }
      destruct (IH h2 q) as (h3 & E3 & L3' & Ha3 & Ht3); [easy|exact Hqq|].
      assert (length h2 = S (length hk)) as Lh2.
      { unfold h2. rewrite replace_length. unfold h1. rewrite app_length. cbn. lia. }
      exists h3. split.
      * unfold body. fold h1. fold q. rewrite Es. cbn [hbind]. rewrite El. cbn [hbind]. exact E3.
      * exists (qs ++ [q]), (owns ++ [q :: seq (length h2) (K - 1)]).
        fold K in L3', Ht3.
        assert (forall x, x < length hk -> x <> b -> nth_error h3 x = nth_error hk x) as Hold.
        { intros x Hx Hxb. rewrite Ha3 by (unfold q; lia). unfold h2. rewrite nth_replace_other by lia.
          unfold h1. now rewrite nth_error_app1. }
        repeat split.
        -- rewrite app_length; cbn; lia.
        -- rewrite app_length; cbn; lia.
        -- rewrite L3', Lh2, L3. lia.
        -- rewrite concat_app, Hc. cbn [concat]. rewrite app_nil_r, Lh2.
           replace (S k * K) with (k * K + K) by lia. rewrite seq_app. f_equal.
           unfold q. rewrite L3. destruct K as [|K']; [lia|]. cbn [Nat.sub seq]. rewrite Nat.sub_0_r. reflexivity.
        -- rewrite Ha3 by (unfold q; lia). exact Hq2.
        -- intros x [Hxb Hx]. rewrite Hold by lia. now apply Ha.
        -- intros i Hi. destruct (Nat.eq_dec i k) as [->|Hik].
           ++ rewrite !app_nth2 by lia. rewrite L1, L2, Nat.sub_diag. cbn [nth]. exact Ht3.
           ++ rewrite !app_nth1 by lia. eapply tree_frame; [|apply Ht; lia].
              intros x Hx. assert (In x (concat owns)) as Hxc by (eapply in_concat_nth; [|exact Hx]; lia).
              rewrite Hc in Hxc. apply in_seq in Hxc. apply Hold; lia.
    + exists h'. assert (block_count (n :: m :: r) - 1 = n * K) as -> by (change (1 + n * K - 1 = n * K); lia).
      split; [exact Eh|]. split; [exact L3|]. split; [exact Ha|].
      exists qs, owns. repeat split; auto.
      * now rewrite Hc.
      * rewrite Hq, Nat.sub_diag. cbn [repeat]. now rewrite app_nil_r.
Qed.

(** ** Elements *)
Definition upd (f : list nat -> option Z) (idx : list nat) (v : option Z) : list nat -> option Z :=
  fun j => if list_eq_dec Nat.eq_dec idx j then v else f j.

Lemma read_spec dims : forall h b own f idx, tree h dims b own f -> within dims idx -> gives (read_at h b idx) (f idx).
Proof.
  unfold gives.
  induction dims as [|n r IH]; intros h b own f idx T Hx; [easy|].
  inversion Hx as [|i ? idx' ? Hi Hr]; subst. destruct r as [|m r].
  - inversion Hr; subst. destruct T as [_ Hb]. cbn [read_at]. unfold load. cbn [block_of]. rewrite Hb. cbn [hbind].
    rewrite nth_error_map. rewrite (nth_error_nth' (seq 0 n) 0) by (rewrite seq_length; auto). rewrite seq_nth by auto.
    cbn [option_map Nat.add]. now destruct (f [i]).
  - destruct T as (qs & owns & L1 & L2 & _ & Hb & Ht).
    assert (read_at h b (i :: idx') = hbind (load_ptr h b i) (fun q => read_at h q idx')) as ->.
    { inversion Hr; subst; reflexivity. }
    rewrite (ptr_read _ _ _ _ Hb) by lia. cbn [hbind]. apply (IH _ _ _ _ _ (Ht i Hi)). exact Hr.
Qed.
Lemma read_outside dims : forall h b own f idx, tree h dims b own f -> length idx = length dims -> ~ within dims idx ->
  read_at h b idx = HErr OutOfBounds /\ forall v, write_at h b idx v = HErr OutOfBounds.
Proof.
  induction dims as [|n r IH]; intros h b own f idx T Hl Hx; [easy|].
  destruct idx as [|i idx]; [easy|]. cbn in Hl. destruct r as [|m r].
  - destruct idx; [|easy]. destruct T as [_ Hb]. cbn [read_at write_at]. unfold load, store. cbn [block_of]. rewrite Hb. cbn [hbind].
    destruct (Nat.lt_ge_cases i n) as [Hi|Hi]; [exfalso; apply Hx; repeat constructor; auto|].
    rewrite map_length, seq_length. split.
    + replace (nth_error (map (fun i0 => f [i0]) (seq 0 n)) i) with (@None (option Z)); auto.
      symmetry. apply nth_error_None. rewrite map_length, seq_length. lia.
    + intros v. destruct (Nat.ltb_spec i n); [lia|auto].
  - destruct T as (qs & owns & L1 & L2 & _ & Hb & Ht). destruct idx as [|j idx]; [easy|].
    change (read_at h b (i :: j :: idx)) with (hbind (load_ptr h b i) (fun q => read_at h q (j :: idx))).
    change (write_at h b (i :: j :: idx)) with (fun v => hbind (load_ptr h b i) (fun q => write_at h q (j :: idx) v)).
    destruct (Nat.lt_ge_cases i n) as [Hi|Hi].
    + rewrite (ptr_read _ _ _ _ Hb) by lia. cbn [hbind]. eapply IH; [apply (Ht i Hi)|cbn in *; lia|].
      intros Hw. apply Hx. constructor; auto.
    + rewrite (ptr_out _ _ _ _ Hb) by lia. split; reflexivity.
Qed.

Lemma map_replace (g : nat -> option Z) n i v : i < n ->
  replace (map g (seq 0 n)) i v = map (fun j => if Nat.eq_dec i j then v else g j) (seq 0 n).
Proof.
  enough (forall k i, i < n -> replace (map g (seq k n)) i v = map (fun j => if Nat.eq_dec (k + i) j then v else g j) (seq k n)) as H
    by (intros Hi; exact (H 0 i Hi)).
  clear i. induction n as [|n IH]; intros k i Hi; [lia|]. cbn [seq map]. destruct i as [|i]; cbn [replace].
  - rewrite Nat.add_0_r. destruct (Nat.eq_dec k k); [|lia]. f_equal. apply map_ext_in. intros j Hj. apply in_seq in Hj.
    destruct (Nat.eq_dec k j); [lia|auto].
  - destruct (Nat.eq_dec (k + S i) k); [lia|]. f_equal. rewrite IH by lia. apply map_ext. intros j.
    replace (S k + i) with (k + S i) by lia. reflexivity.
Qed.

(** Changing one part of a node. *)
Lemma node_update h h' n m r b qs owns (f g : list nat -> option Z) i :
  length qs = n -> length owns = n -> nth_error h b = Some (Some (ptrs qs)) -> i < n ->
  NoDup (b :: concat owns) ->
  (forall j, j < n -> tree h (m :: r) (nth j qs 0) (nth j owns []) (fun idx => f (j :: idx))) ->
  agree (fun x => ~ In x (nth i owns [])) h h' ->
  tree h' (m :: r) (nth i qs 0) (nth i owns []) (fun idx => g (i :: idx)) ->
  (forall j idx, j <> i -> g (j :: idx) = f (j :: idx)) ->
  tree h' (n :: m :: r) b (b :: concat owns) g.
Proof.
  intros L1 L2 Hb Hi Hd Ht Ha Hti Hg. inversion Hd as [|? ? Hnb Hdc]; subst x l.
  destruct (NoDup_concat_nth _ Hdc) as [_ Hdis].
  exists qs, owns. repeat split; auto.
  - rewrite Ha; auto. intros Hx. apply Hnb. eapply in_concat_nth; [|exact Hx]. lia.
  - intros j Hj. destruct (Nat.eq_dec j i) as [->|Hji]; auto.
    eapply tree_frame; [intros x Hx; apply Ha; eapply (Hdis j i); eauto|].
    eapply tree_ext; [|apply Ht; auto]. intros idx _. now rewrite Hg.
Qed.

Lemma write_spec dims : forall h b own f idx v, tree h dims b own f -> NoDup own -> within dims idx ->
  exists h', write_at h b idx v = HOk h' /\ length h' = length h /\ agree (fun x => ~ In x own) h h' /\
             tree h' dims b own (upd f idx (Some v)).
Proof.
  induction dims as [|n r IH]; intros h b own f idx v T Hd Hx; [easy|].
  inversion Hx as [|i ? idx' ? Hi Hr]; subst. destruct r as [|m r].
  - inversion Hr; subst. destruct T as [-> Hb]. cbn [write_at].
    assert (b < length h) by (apply nth_error_Some; congruence).
    rewrite (store_ok _ _ _ _ _ Hb) by (now rewrite map_length, seq_length).
    eexists. split; [reflexivity|]. repeat split.
    + apply replace_length.
    + intros x Hn. apply nth_replace_other. intros ->. apply Hn. now left.
    + rewrite nth_replace_same by auto. rewrite map_replace by auto. do 2 f_equal. apply map_ext. intros j. unfold upd.
      destruct (Nat.eq_dec i j), (list_eq_dec Nat.eq_dec [i] [j]); congruence.
  - destruct T as (qs & owns & L1 & L2 & -> & Hb & Ht).
    assert (write_at h b (i :: idx') v = hbind (load_ptr h b i) (fun q => write_at h q idx' v)) as ->.
    { inversion Hr; subst; reflexivity. }
    rewrite (ptr_read _ _ _ _ Hb) by lia. cbn [hbind].
    assert (NoDup (concat owns)) as Hdc by now inversion Hd.
    destruct (IH h _ _ _ idx' v (Ht i Hi) (proj1 (NoDup_concat_nth _ Hdc) i) Hr) as (h' & Ew & Ll & Ha & Ht').
    exists h'. split; [exact Ew|]. split; [exact Ll|]. split.
    + intros x Hn. apply Ha. intros Hin. apply Hn. right. eapply in_concat_nth; [|exact Hin]. lia.
    + eapply (node_update h h' n m r b qs owns f _ i); eauto.
      * eapply tree_ext; [|exact Ht']. intros idx _. unfold upd.
        destruct (list_eq_dec Nat.eq_dec idx' idx), (list_eq_dec Nat.eq_dec (i :: idx') (i :: idx)); congruence.
      * intros j idx Hj. unfold upd. destruct (list_eq_dec Nat.eq_dec (i :: idx') (j :: idx)); congruence.
Qed.

Lemma clear_spec dims : forall h b own f, tree h dims b own f -> NoDup own ->
  exists h', clear dims h b = HOk h' /\ length h' = length h /\ agree (fun x => ~ In x own) h h' /\
             tree h' dims b own (fun _ => Some 0%Z).
Proof.
  induction dims as [|n r IH]; intros h b own f T Hd; [easy|]. destruct r as [|m r].
  - destruct T as [-> Hb]. cbn [clear].
    destruct (hfold_inv (fun h0 kk => store h0 (Some b) kk 0%Z)
      (fun k hk => length hk = length h /\ agree (fun x => ~ In x [b]) h hk /\
         nth_error hk b = Some (Some (map (fun i => if i <? k then Some 0%Z else f [i]) (seq 0 n)))) n h)
      as (h' & E & L & Ha & Hb').
    + repeat split; auto.
    + intros k hk Hk (L & Ha & Hbk). assert (b < length hk) by (apply nth_error_Some; congruence).
      rewrite (store_ok _ _ _ _ _ Hbk) by (now rewrite map_length, seq_length).
      eexists. split; [reflexivity|]. repeat split.
      * now rewrite replace_length.
      * intros x Hn. rewrite nth_replace_other; auto. intros ->. apply Hn. now left.
      * rewrite nth_replace_same by auto. rewrite map_replace by auto. do 2 f_equal. apply map_ext_in. intros j _.
        destruct (Nat.eq_dec k j) as [->|Hkj].
        -- now rewrite (proj2 (Nat.ltb_lt j (S j))) by lia.
        -- destruct (Nat.ltb_spec j k), (Nat.ltb_spec j (S k)); auto; lia.
    + exists h'. repeat split; auto. rewrite Hb'. do 2 f_equal. apply map_ext_in. intros j Hj. apply in_seq in Hj.
      now rewrite (proj2 (Nat.ltb_lt j n)) by lia.
  - destruct T as (qs & owns & L1 & L2 & -> & Hb & Ht).
    assert (NoDup (concat owns)) as Hdc by now inversion Hd.
    destruct (hfold_inv (fun h0 ii => hbind (load_ptr h0 b ii) (fun q => clear (m :: r) h0 q))
      (fun k hk => length hk = length h /\ agree (fun x => ~ In x (b :: concat owns)) h hk /\
         tree hk (n :: m :: r) b (b :: concat owns) (fun idx => if hd 0 idx <? k then Some 0%Z else f idx)) n h)
      as (h' & E & L & Ha & T').
    + repeat split; auto. eapply tree_ext; [|exists qs, owns; repeat split; eauto]. intros idx _. reflexivity.
    + intros k hk Hk (L & Ha & (qs' & owns' & L1' & L2' & Eo & Hb' & Ht')).
      assert (concat owns = concat owns') as Ec by congruence.
      rewrite (ptr_read _ _ _ _ Hb') by lia. cbn [hbind].
      assert (NoDup (concat owns')) as Hdc' by congruence.
      destruct (IH hk _ _ _ (Ht' k Hk) (proj1 (NoDup_concat_nth _ Hdc') k)) as (h1 & E1 & Ll & Ha1 & T1).
      exists h1. split; [exact E1|]. split; [lia|]. split.
      * intros x Hn. rewrite Ha1; [now apply Ha|]. intros Hin. apply Hn. right. rewrite Ec. eapply in_concat_nth; [|exact Hin]. lia.
      * rewrite Ec. eapply (node_update hk h1 n m r b qs' owns' (fun idx => if hd 0 idx <? k then Some 0%Z else f idx) (fun idx => if hd 0 idx <? S k then Some 0%Z else f idx) k); eauto.
        -- rewrite <- Ec. exact Hd.
        -- apply (tree_ext h1 (m :: r) _ _ (fun _ => Some 0%Z) (fun idx => if hd 0 (k :: idx) <? S k then Some 0%Z else f (k :: idx))); [|exact T1].
           intros idx _. cbn [hd]. now rewrite (proj2 (Nat.ltb_lt k (S k))) by lia.
        -- intros j idx Hj. cbn [hd]. destruct (Nat.ltb_spec j k), (Nat.ltb_spec j (S k)); auto; lia.
    + exists h'. repeat split; auto. eapply tree_ext; [|exact T'].
      intros idx Hw. inversion Hw; subst. cbn [hd]. now rewrite (proj2 (Nat.ltb_lt _ _)) by eauto.
Qed.

(** ** Release *)
Lemma hfree_ok h b : alive h b -> hfree h (Some b) = HOk (replace h b None).
Proof. intros [c Hc]. cbn. now rewrite Hc. Qed.
Lemma removelast_cons2 (n m : nat) r : removelast (n :: m :: r) = n :: removelast (m :: r).
Proof. reflexivity. Qed.

Lemma free_spec dims : forall h b own f, tree h dims b own f -> NoDup own ->
  exists h', free_nested (removelast dims) h b = HOk h' /\ length h' = length h /\ agree (fun x => ~ In x own) h h' /\
             forall x, In x own -> nth_error h' x = Some None.
Proof.
  induction dims as [|n r IH]; intros h b own f T Hd; [easy|]. destruct r as [|m r].
  - destruct T as [-> Hb]. assert (b < length h) by (apply nth_error_Some; congruence). cbn [removelast free_nested].
    rewrite hfree_ok by (eexists; eauto). eexists. split; [reflexivity|]. repeat split.
    + apply replace_length.
    + intros x Hn. apply nth_replace_other. intros ->. apply Hn. now left.
    + intros x [->|[]]. now apply nth_replace_same.
  - destruct T as (qs & owns & L1 & L2 & -> & Hb & Ht).
    inversion Hd as [|? ? Hnb Hdc]; subst x l. destruct (NoDup_concat_nth _ Hdc) as [Hdi Hdis].
    rewrite removelast_cons2. cbn [free_nested].
    destruct (hfold_inv (fun h0 ii => hbind (load_ptr h0 b ii) (fun q => free_nested (removelast (m :: r)) h0 q))
      (fun k hk => length hk = length h /\ agree (fun x => forall i, i < k -> ~ In x (nth i owns [])) h hk /\
          forall i x, i < k -> In x (nth i owns []) -> nth_error hk x = Some None) n h)
      as (h' & E & L & Ha & Hf).
    + repeat split; auto. intros; lia.
    + intros k hk Hk (L & Ha & Hf).
      assert (nth_error hk b = Some (Some (ptrs qs))) as Hbk.
      { rewrite Ha; auto. intros i Hi Hin. apply Hnb. eapply in_concat_nth; [|exact Hin]. lia. }
      rewrite (ptr_read _ _ _ _ Hbk) by lia. cbn [hbind].
      assert (tree hk (m :: r) (nth k qs 0) (nth k owns []) (fun idx => f (k :: idx))) as Tk.
      { eapply tree_frame; [|apply Ht; auto]. intros x Hx. apply Ha. intros i Hi. eapply (Hdis k i); eauto. lia. }
      destruct (IH hk _ _ _ Tk (Hdi k)) as (h1 & E1 & Ll & Ha1 & Hf1).
      exists h1. split; [exact E1|]. repeat split; [lia| |].
      * intros x Hx. rewrite Ha1 by (apply Hx; lia). apply Ha. intros i Hi. apply Hx. lia.
      * intros i x Hi Hx. destruct (Nat.eq_dec i k) as [->|Hik]; auto.
        rewrite Ha1; [apply (Hf i); auto; lia|]. eapply (Hdis i k); eauto.
    + rewrite E. cbn [hbind].
      assert (nth_error h' b = Some (Some (ptrs qs))) as Hb'.
      { rewrite Ha; auto. intros i Hi Hin. apply Hnb. eapply in_concat_nth; [|exact Hin]. lia. }
      assert (b < length h') by (apply nth_error_Some; congruence).
      rewrite hfree_ok by (eexists; eauto). eexists. split; [reflexivity|]. repeat split.
      * now rewrite replace_length.
      * intros x Hx. rewrite nth_replace_other by (intros ->; apply Hx; now left). apply Ha. intros i Hi Hin. apply Hx.
        right. eapply in_concat_nth; [|exact Hin]. lia.
      * intros x [->|Hx]; [now apply nth_replace_same|]. apply in_concat in Hx. destruct Hx as (o & Ho & Hx).
        destruct (In_nth _ _ [] Ho) as (i & Hi & Ei). rewrite nth_replace_other.
        -- apply (Hf i); [lia|now rewrite Ei].
        -- intros ->. apply Hnb. eapply in_concat_nth; [exact Hi|now rewrite Ei].
Qed.

(** Released with other sizes: an error, or a block is left. *)
Lemma free_other dims : forall sizes h b own f h', tree h dims b own f -> NoDup own -> (forall n, In n dims -> 0 < n) ->
  S (length sizes) = length dims -> free_nested sizes h b = HOk h' ->
  agree (fun x => ~ In x own) h h' /\ (sizes <> removelast dims -> exists x, In x own /\ alive h' x).
Proof.
  induction dims as [|n r IH]; intros sizes h b own f h' T Hd Hp Hl E; [easy|]. destruct r as [|m r].
  - destruct sizes; [|cbn in Hl; lia]. destruct T as [-> Hb]. cbn [free_nested] in E.
    rewrite hfree_ok in E by (eexists; eauto). assert (h' = replace h b None) by congruence. subst h'. split.
    + intros x Hn. apply nth_replace_other. intros ->. apply Hn. now left.
    + intros Hne. now contradiction Hne.
  - destruct sizes as [|n' sizes]; [cbn in Hl; lia|].
    destruct T as (qs & owns & L1 & L2 & -> & Hb & Ht).
    inversion Hd as [|? ? Hnb Hdc]; subst x l. destruct (NoDup_concat_nth _ Hdc) as [Hdi Hdis].
    cbn [free_nested] in E.
    set (body := fun (h0 : heap) ii => hbind (load_ptr h0 b ii) (fun q => free_nested sizes h0 q)) in E.
    destruct (hfold body (seq 0 n') h) as [h1|] eqn:E1; cbn [hbind] in E; [|discriminate].
    assert (n' <= n /\ agree (fun x => forall i, i < n' -> ~ In x (nth i owns [])) h h1 /\
            (sizes <> removelast (m :: r) -> forall i, i < n' -> exists x, In x (nth i owns []) /\ alive h1 x)) as (Hn & Ha & Hlive).
    { apply (hfold_part body (fun k hk => k <= n /\ agree (fun x => forall i, i < k -> ~ In x (nth i owns [])) h hk /\
            (sizes <> removelast (m :: r) -> forall i, i < k -> exists x, In x (nth i owns []) /\ alive hk x)) n' h h1); auto.
      - repeat split; auto; lia.
      - intros k hk h2 Hk (Hkn & Ha & Hlv) E2. unfold body in E2.
        assert (nth_error hk b = Some (Some (ptrs qs))) as Hbk.
        { rewrite Ha; auto. intros i Hi Hin. apply Hnb. eapply in_concat_nth; [|exact Hin]. lia. }
        destruct (Nat.lt_ge_cases k n) as [Hlt|Hge].
        2:{ rewrite (ptr_out _ _ _ _ Hbk) in E2 by lia. discriminate. }
        rewrite (ptr_read _ _ _ _ Hbk) in E2 by lia. cbn [hbind] in E2.
        assert (tree hk (m :: r) (nth k qs 0) (nth k owns []) (fun idx => f (k :: idx))) as Tk.
        { eapply tree_frame; [|apply Ht; auto]. intros x Hx. apply Ha. intros i Hi. eapply (Hdis k i); eauto. lia. }
        destruct (IH sizes hk _ _ _ h2 Tk (Hdi k)) as [Ha2 Hl2]; auto.
        { intros k' Hk'. apply Hp. now right. }
        repeat split; [lia| |].
        + intros x Hx. rewrite Ha2 by (apply Hx; lia). apply Ha. intros i Hi. apply Hx. lia.
        + intros Hne i Hi. destruct (Nat.eq_dec i k) as [->|Hik]; auto.
          destruct (Hlv Hne i) as (x & Hx & [c Hc]); [lia|]. exists x. split; auto. exists c.
          rewrite Ha2; auto. eapply (Hdis i k); eauto. }
    assert (nth_error h1 b = Some (Some (ptrs qs))) as Hb1.
    { rewrite Ha; auto. intros i Hi Hin. apply Hnb. eapply in_concat_nth; [|exact Hin]. lia. }
    rewrite hfree_ok in E by (eexists; eauto). assert (h' = replace h1 b None) by congruence. subst h'. clear E.
    assert (forall i x, i < n -> In x (nth i owns []) -> alive h1 x -> exists y, In y (b :: concat owns) /\ alive (replace h1 b None) y) as Hwit.
    { intros i x Hi Hx [c Hc]. exists x. assert (In x (concat owns)) by (eapply in_concat_nth; [|exact Hx]; lia).
      split; [now right|]. exists c. rewrite nth_replace_other; auto. intros ->. auto. }
    split.
    + intros x Hx. rewrite nth_replace_other by (intros ->; apply Hx; now left). apply Ha. intros i Hi Hin. apply Hx.
      right. eapply in_concat_nth; [|exact Hin]. lia.
    + rewrite removelast_cons2. intros Hne.
      destruct (Nat.eq_dec n' n) as [->|Hnn].
      * assert (0 < n) by (apply Hp; now left).
        destruct (Hlive ltac:(congruence) 0) as (x & Hx & Hal); [lia|]. eapply (Hwit 0); eauto.
      * assert (n' < n) as Hlt by lia. pose proof (tree_root _ _ _ _ _ (Ht n' Hlt)) as Hr.
        apply (Hwit n' _ Hlt Hr). destruct (tree_alive _ _ _ _ _ _ (Ht n' Hlt) Hr) as [c Hc]. exists c.
        rewrite Ha; auto. intros i Hi. eapply (Hdis n' i); eauto. lia.
Qed.

(** ** Whole life of an array *)
Lemma agree_firstn (h h' : heap) : length h <= length h' -> agree (fun x => x < length h) h h' -> firstn (length h) h' = h.
Proof.
  revert h'; induction h as [|x h IH]; intros h' Hl Ha; [reflexivity|]. destruct h' as [|y h']; [cbn in Hl; lia|].
  cbn [length firstn]. f_equal.
  - specialize (Ha 0 ltac:(cbn; lia)). cbn in Ha. congruence.
  - apply IH; [cbn in Hl; lia|]. intros b Hb. apply (Ha (S b)). cbn. lia.
Qed.

Lemma allocate_tree dims init h : dims <> [] ->
  exists h', allocate_nested dims init h = HOk (length h, h') /\ length h' = length h + block_count dims /\
    agree (fun x => x < length h) h h' /\
    tree h' dims (length h) (seq (length h) (block_count dims)) (fun _ => if init then Some 0%Z else None).
Proof.
  intros Hne. unfold allocate_nested. set (h1 := h ++ [Some (repeat None (hd 0 dims))]).
  assert (length h1 = S (length h)) as L1 by (unfold h1; rewrite app_length; cbn; lia).
  destruct (fill_spec dims h1 (length h) Hne) as (h2 & E2 & L2 & Ha & T).
  { unfold h1. rewrite nth_error_app2, Nat.sub_diag by lia. reflexivity. }
  assert (1 <= block_count dims) as Hc by (destruct dims; [easy|cbn [block_count]; lia]).
  rewrite L1 in T. replace (length h :: seq (S (length h)) (block_count dims - 1)) with (seq (length h) (block_count dims)) in T
    by (destruct (block_count dims); [lia|cbn [seq Nat.sub]; now rewrite Nat.sub_0_r]).
  assert (agree (fun x => x < length h) h h2) as Ha2.
  { intros x Hx. rewrite Ha by lia. unfold h1. now rewrite nth_error_app1. }
  rewrite E2. cbn [hbind]. destruct init.
  - destruct (clear_spec _ _ _ _ _ T (seq_NoDup _ _)) as (h3 & E3 & L3 & Ha3 & T3).
    exists h3. rewrite E3. cbn [hbind]. repeat split; auto; [lia|].
    intros x Hx. rewrite Ha3; auto. rewrite in_seq. lia.
  - exists h2. cbn [hbind]. repeat split; auto. lia.
Qed.

Lemma writes_tree dims own l : forall h b f, tree h dims b own f -> NoDup own -> Forall (fun e => within dims (fst e)) l ->
  exists h', writes h b l = HOk h' /\ length h' = length h /\ agree (fun x => ~ In x own) h h' /\
    tree h' dims b own (fun idx => last_written idx l (f idx)).
Proof.
  induction l as [|[idx v] l IH]; intros h b f T Hd Hl.
  - exists h. repeat split; auto.
  - inversion Hl as [|? ? Hi Hr]; subst. cbn [fst] in Hi.
    destruct (write_spec _ _ _ _ _ _ v T Hd Hi) as (h1 & E1 & L1 & Ha1 & T1).
    destruct (IH _ _ _ T1 Hd Hr) as (h2 & E2 & L2 & Ha2 & T2).
    exists h2. cbn [writes]. rewrite E1. cbn [hbind]. split; [exact E2|]. split; [lia|]. split.
    + intros x Hx. rewrite Ha2, Ha1; auto.
    + eapply tree_ext; [|exact T2]. intros j _. cbn [last_written]. reflexivity.
Qed.

Lemma life dims init h l : dims <> [] -> Forall (fun e => within dims (fst e)) l ->
  exists b h1 h2, allocate_nested dims init h = HOk (b, h1) /\ writes h1 b l = HOk h2 /\
    firstn (length h) h1 = h /\ length h1 = length h + block_count dims /\
    firstn (length h) h2 = h /\
    (forall x, length h <= x < length h1 -> alive h1 x) /\
    (forall idx, within dims idx -> gives (read_at h2 b idx) (last_written idx l (if init then Some 0%Z else None))) /\
    (forall idx, length idx = length dims -> ~ within dims idx ->
       read_at h2 b idx = HErr OutOfBounds /\ forall v, write_at h2 b idx v = HErr OutOfBounds) /\
    exists h3, free_nested (removelast dims) h2 b = HOk h3 /\ restored h h3.
Proof.
  intros Hne Hl. destruct (allocate_tree dims init h Hne) as (h1 & E1 & L1 & A1 & T1).
  destruct (writes_tree _ _ l _ _ _ T1 (seq_NoDup _ _) Hl) as (h2 & E2 & L2 & A2 & T2).
  destruct (free_spec _ _ _ _ _ T2 (seq_NoDup _ _)) as (h3 & E3 & L3 & A3 & F3).
  assert (agree (fun x => x < length h) h h2) as A12 by (intros x Hx; rewrite A2, A1; auto; rewrite in_seq; lia).
  assert (agree (fun x => x < length h) h h3) as A13 by (intros x Hx; rewrite A3, A12; auto; rewrite in_seq; lia).
  exists (length h), h1, h2. split; [exact E1|]. split; [exact E2|].
  split; [apply agree_firstn; auto; lia|]. split; [exact L1|]. split; [apply agree_firstn; auto; lia|].
  split; [intros x Hx; eapply tree_alive; [exact T1|]; apply in_seq; lia|].
  split; [intros idx Hi; apply (read_spec _ _ _ _ _ _ T2 Hi)|].
  split; [intros idx Hi Hw; eapply read_outside; eauto|].
  exists h3. split; [exact E3|]. split; [apply agree_firstn; auto; lia|].
  intros x Hx [c Hc]. destruct (Nat.lt_ge_cases x (length h3)) as [Hlt|Hge].
  - rewrite F3 in Hc by (apply in_seq; lia). discriminate.
  - rewrite (proj2 (nth_error_None _ _) Hge) in Hc. discriminate.
Qed.

Lemma life_other dims init h l sizes b h1 h2 h3 : (forall n, In n dims -> 0 < n) -> S (length sizes) = length dims -> sizes <> removelast dims ->
  Forall (fun e => within dims (fst e)) l -> allocate_nested dims init h = HOk (b, h1) -> writes h1 b l = HOk h2 ->
  free_nested sizes h2 b = HOk h3 -> leaks h h3.
Proof.
  intros Hp Hs Hne Hl E1 E2 E3. assert (dims <> []) as Hd by (destruct dims; easy).
  destruct (allocate_tree dims init h Hd) as (h1' & E1' & L1 & A1 & T1).
  assert (b = length h /\ h1 = h1') as [-> ->] by (split; congruence).
  destruct (writes_tree _ _ l _ _ _ T1 (seq_NoDup _ _) Hl) as (h2' & E2' & L2 & A2 & T2).
  assert (h2 = h2') as -> by congruence.
  destruct (free_other _ _ _ _ _ _ _ T2 (seq_NoDup _ _) Hp Hs E3) as [_ H].
  destruct (H Hne) as (x & Hx & Hal). exists x. split; auto. apply in_seq in Hx. lia.
Qed.

(** ** Printing *)
Lemma show_tree dims : forall h b own f, tree h dims b own f -> (forall idx, within dims idx -> f idx <> None) ->
  exists out, show_nested dims h b = HOk out /\ map fst out = indices dims /\ Forall (fun e => f (fst e) = Some (snd e)) out.
Proof.
  induction dims as [|n r IH]; intros h b own f T Hf; [easy|].
  assert (forall k, seq 0 (S k) = seq 0 k ++ [k]) as Hseq by (intros; apply seq_S).
  destruct r as [|m r].
  - destruct T as [_ Hb]. cbn [show_nested].
    destruct (hfold_inv (fun out ii => hbind (load h (Some b) ii) (fun v => HOk (out ++ [([ii], v)])))
      (fun k out => map fst out = map (fun i => [i]) (seq 0 k) /\ Forall (fun e => f (fst e) = Some (snd e)) out) n [])
      as (out & E & M & F).
    + split; [reflexivity|constructor].
    + intros k out Hk [M F]. unfold load. cbn [block_of]. rewrite Hb. cbn [hbind].
      rewrite nth_error_map, (nth_error_nth' (seq 0 n) 0) by (rewrite seq_length; auto). rewrite seq_nth by auto.
      cbn [option_map Nat.add]. assert (f [k] <> None) as Hk' by (apply Hf; repeat constructor; auto).
      destruct (f [k]) as [v|] eqn:Ev; [|easy]. cbn [hbind]. eexists. split; [reflexivity|]. split.
      * rewrite map_app, M, Hseq, map_app. reflexivity.
      * apply Forall_app. split; auto.
    + exists out. split; [exact E|]. split; auto.
  - destruct T as (qs & owns & L1 & L2 & _ & Hb & Ht).
    destruct (hfold_inv (fun out ii => hbind (load_ptr h b ii) (fun q => hbind (show_nested (m :: r) h q) (fun s => HOk (out ++ map (fun e => (ii :: fst e, snd e)) s))))
      (fun k out => map fst out = flat_map (fun i => map (cons i) (indices (m :: r))) (seq 0 k) /\ Forall (fun e => f (fst e) = Some (snd e)) out) n [])
      as (out & E & M & F).
    + split; [reflexivity|constructor].
    + intros k out Hk [M F]. rewrite (ptr_read _ _ _ _ Hb) by lia. cbn [hbind].
      destruct (IH h _ _ _ (Ht k Hk)) as (s & E1 & M1 & F1).
      { intros idx Hi. apply Hf. constructor; auto. }
      rewrite E1. cbn [hbind]. eexists. split; [reflexivity|]. split.
      * rewrite map_app, M, Hseq, flat_map_app. cbn [flat_map]. rewrite app_nil_r, <- M1, !map_map. reflexivity.
      * apply Forall_app. split; auto. apply Forall_map. eapply Forall_impl; [|exact F1]. cbn. auto.
    + exists out. split; [exact E|]. split; auto.
Qed.
Lemma show_life dims h l b h1 h2 : dims <> [] -> Forall (fun e => within dims (fst e)) l ->
  allocate_nested dims true h = HOk (b, h1) -> writes h1 b l = HOk h2 ->
  show_nested dims h2 b = HOk (map (fun idx => (idx, match last_written idx l (Some 0%Z) with Some v => v | None => 0%Z end)) (indices dims)).
Proof.
  intros Hd Hl E1 E2. destruct (allocate_tree dims true h Hd) as (h1' & E1' & L1 & A1 & T1).
  assert (b = length h /\ h1 = h1') as [-> ->] by (split; congruence).
  destruct (writes_tree _ _ l _ _ _ T1 (seq_NoDup _ _) Hl) as (h2' & E2' & L2 & A2 & T2).
  assert (h2 = h2') as -> by congruence.
  destruct (show_tree _ _ _ _ _ T2) as (out & E & M & F).
  { intros idx _. assert (forall l o, o <> None -> last_written idx l o <> None) as H.
    { clear. induction l as [|[j v] l IH]; intros o Ho; cbn; auto. apply IH. destruct list_eq_dec; congruence. }
    apply H. discriminate. }
  rewrite E. f_equal. rewrite <- M, map_map. clear -F. induction F as [|[idx v] out Hv F IH]; [reflexivity|].
  cbn [map fst snd] in *. now rewrite Hv, <- IH.
Qed.
Lemma life_dimensions n0 n1 n2 n3 n4 init h :
  (exists b h1 h2, allocate3dArray n0 n1 n2 init h = HOk (b, h1) /\ free3dArray b n0 n1 h1 = HOk h2 /\ restored h h2) /\
  (exists b h1 h2, allocate4dArray n0 n1 n2 n3 init h = HOk (b, h1) /\ free4dArray b n0 n1 n2 h1 = HOk h2 /\ restored h h2) /\
  (exists b h1 h2, allocate5dArray n0 n1 n2 n3 n4 init h = HOk (b, h1) /\ free5dArray b n0 n1 n2 n3 h1 = HOk h2 /\ restored h h2).
Proof.
  assert (forall dims, dims <> [] -> exists b h1 h2, allocate_nested dims init h = HOk (b, h1) /\
    free_nested (removelast dims) h1 b = HOk h2 /\ restored h h2) as H.
  { intros dims Hd. destruct (life dims init h [] Hd (Forall_nil _)) as (b & h1 & h2 & E1 & E2 & _ & _ & _ & _ & _ & _ & h3 & E3 & R).
    cbn [writes] in E2. assert (h1 = h2) as -> by congruence. exists b, h2, h3. auto. }
  repeat split; [apply (H [n0; n1; n2])|apply (H [n0; n1; n2; n3])|apply (H [n0; n1; n2; n3; n4])]; discriminate.
Qed.
