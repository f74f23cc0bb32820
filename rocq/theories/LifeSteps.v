(** Proofs about the memory of structures: whole programs. *)
From Coq Require Import Permutation.
From Verif Require Import NestModel NestSpec NestProofs LifeModel LifeSpec LifeProofs LifeInv LifeMake LifeEnlarge.
Local Open Scope nat_scope.
Local Open Scope list_scope.

Lemma replace_replace {A} (l : list A) x a b : replace (replace l x a) x b = replace l x b.
Proof. revert x. induction l as [|y l IH]; intros [|x]; cbn; auto. now rewrite IH. Qed.

Lemma inv_none vs st h own x : inv vs (st, h) own -> nth_error vs x = None -> nth_error st x = None.
Proof. intros I H. apply nth_error_None. pose proof (inv_len _ _ _ I) as L. cbn [fst] in L. rewrite L. now apply nth_error_None. Qed.
Lemma inv_get vs st h own x v : inv vs (st, h) own -> nth_error vs x = Some v ->
  x < length vs /\ exists o, nth_error st x = Some o /\ slot h o v (own x).
Proof.
  intros I H. assert (x < length vs) as Hx by (apply nth_error_Some; congruence). split; [auto|].
  destruct (inv_slot _ _ _ I x Hx) as (o & v' & E & E' & Sl). cbn [fst snd] in *. exists o. split; auto. congruence.
Qed.
Lemma slot_none h o own : slot h o None own -> o = None /\ own = [].
Proof. destruct o; [easy|]. auto. Qed.
Lemma slot_some h o v own : slot h o (Some v) own -> exists o', o = Some o'.
Proof. destruct o; [eauto|]. easy. Qed.

Lemma held_object vs st h own x v : inv vs (st, h) own -> holds vs x = Some v ->
  x < length vs /\ exists o, object st x = HOk o /\ slot h (Some o) (Some v) (own x).
Proof.
  unfold holds, object. intros I H. destruct (nth_error vs x) as [[w|]|] eqn:E; try discriminate. injection H as <-.
  destruct (inv_get _ _ _ _ _ _ I E) as (Hx & o & Eo & Sl). split; [auto|]. destruct (slot_some _ _ _ _ Sl) as [o' ->].
  exists o'. rewrite Eo. auto.
Qed.
Lemma no_object vs st h own x : inv vs (st, h) own -> holds vs x = None -> exists e, object st x = HErr e.
Proof.
  unfold holds, object. intros I H. destruct (nth_error vs x) as [[w|]|] eqn:E; try discriminate.
  - destruct (inv_get _ _ _ _ _ _ I E) as (Hx & o & Eo & Sl). apply slot_none in Sl. destruct Sl as [-> _]. rewrite Eo. eauto.
  - rewrite (inv_none _ _ _ _ _ I E). eauto.
Qed.
Lemma vacant_place vs st h own x r v : inv vs (st, h) own -> vacant vs x = true ->
  (exists o h', r h = HOk (o, h') /\ exists new, changes h h' [] new /\ slot h' (Some o) (Some v) new) ->
  exists s' own', construct_at x r (st, h) = HOk s' /\ inv (replace vs x (Some v)) s' own'.
Proof.
  unfold vacant, construct_at. intros I H (o & h' & E & new & C & Sl). destruct (nth_error vs x) as [[w|]|] eqn:Ev; try discriminate.
  destruct (inv_get _ _ _ _ _ _ I Ev) as (Hx & o0 & Eo & Sl0). apply slot_none in Sl0. destruct Sl0 as [-> En].
  cbn [fst snd]. rewrite Eo, E. cbn [hbind]. do 2 eexists. split; [reflexivity|]. eapply inv_update; eauto. now rewrite En.
Qed.
Lemma vacant_bad vs st h own x r e : inv vs (st, h) own -> vacant vs x = true -> r h = HErr e -> exists e', construct_at x r (st, h) = HErr e'.
Proof.
  unfold vacant, construct_at. intros I H E. destruct (nth_error vs x) as [[w|]|] eqn:Ev; try discriminate.
  destruct (inv_get _ _ _ _ _ _ I Ev) as (Hx & o0 & Eo & Sl0). apply slot_none in Sl0. destruct Sl0 as [-> En].
  cbn [fst snd]. rewrite Eo, E. cbn [hbind]. eauto.
Qed.
Lemma not_vacant vs st h own x r : inv vs (st, h) own -> vacant vs x = false -> exists e', construct_at x r (st, h) = HErr e'.
Proof.
  unfold vacant, construct_at. intros I H. cbn [fst snd]. destruct (nth_error vs x) as [[w|]|] eqn:Ev; try discriminate.
  - destruct (inv_get _ _ _ _ _ _ I Ev) as (Hx & o0 & Eo & Sl0). destruct (slot_some _ _ _ _ Sl0) as [o' ->]. rewrite Eo. eauto.
  - rewrite (inv_none _ _ _ _ _ I Ev). eauto.
Qed.
Lemma default_slot h : exists o h', construct_default h = HOk (o, h') /\ exists new, changes h h' [] new /\ slot h' (Some o) (Some Empty) new.
Proof.
  eexists. exists h. split; [reflexivity|]. exists []. split; [|cbn; auto]. exact (fresh_changes h h 0 ltac:(lia) ltac:(intros x _; reflexivity)).
Qed.

(** The first half of an assignment. *)
Lemma emptied vs st h own x v : inv vs (st, h) own -> holds vs x = Some v ->
  exists o h' own', object st x = HOk o /\ (if o_n o =? 0 then HOk h else release o h) = HOk h' /\
    inv (replace vs x (Some Empty)) (replace st x (Some (with_n o 0)), h') own'.
Proof.
  intros I H. destruct (held_object _ _ _ _ _ _ I H) as (Hx & o & Eo & Sl). destruct (destroy_ok _ _ _ _ Sl) as (h' & E & L & C & Dd).
  exists o, h'. eexists. split; [exact Eo|]. split; [exact E|]. eapply inv_update; eauto. cbn [slot]. repeat split; auto.
Qed.

Theorem step_meaning c vs s own : inv vs s own -> enlarges_properly c ->
  match meaning c vs with
  | Some vs' => exists s' own', step c s = HOk s' /\ inv vs' s' own'
  | None => exists e, step c s = HErr e
  end.
Proof.
  destruct s as [st h]. intros I Hp. destruct c as [x|x n|x n b a cs k|x y|x y|x s0 s1 s2|x]; cbn [meaning step fst snd].
  - destruct (vacant vs x) eqn:V; [|eapply not_vacant; eauto]. eapply vacant_place; eauto. apply default_slot.
  - destruct (vacant vs x) eqn:V; [|eapply not_vacant; eauto]. eapply vacant_place; eauto. apply raw_ok.
  - destruct (vacant vs x) eqn:V; [|eapply not_vacant; eauto]. destruct (made n b a cs k) as [v|] eqn:Em.
    + eapply vacant_place; eauto. now apply make_ok.
    + destruct (make_bad n b a cs k h Em) as [e E]. eapply vacant_bad; eauto.
  - destruct (vacant vs x) eqn:V.
    + destruct (holds vs y) as [w|] eqn:Hy.
      * destruct (held_object _ _ _ _ _ _ I Hy) as (Hyl & o & Eo & Sl). rewrite Eo. cbn [hbind]. destruct w as [|n|v].
        -- eapply vacant_place; eauto. unfold construct_copy. destruct Sl as (_ & -> & _). apply default_slot.
        -- destruct (copy_unset _ _ _ _ Sl) as [e E]. eapply vacant_bad; eauto. unfold construct_copy. destruct Sl as (Hn & -> & _).
           destruct (Nat.eqb_spec n 0); [lia|]. exact E.
        -- eapply vacant_place; eauto. destruct (copy_full _ _ _ _ Sl) as (o' & h' & E & C & Sl'). exists o', h'. split; [|eauto].
           unfold construct_copy. destruct Sl as (G & -> & _). destruct (Nat.eqb_spec (length (coords v)) 0) as [E0|_]; [destruct G as (_ & _ & Gn & _); lia|exact E].
      * destruct (no_object _ _ _ _ _ I Hy) as [e ->]. cbn [hbind]. eauto.
    + destruct (object st y) as [o|e]; cbn [hbind]; [|eauto]. eapply not_vacant; eauto.
  - destruct (holds vs x) as [v|] eqn:Hx.
    2:{ destruct (no_object _ _ _ _ _ I Hx) as [e E]. unfold assign. rewrite E. cbn [hbind]. eauto. }
    destruct (emptied _ _ _ _ _ _ I Hx) as (o & h1 & own1 & Eo & Er & I1). unfold assign. rewrite Eo. cbn [hbind]. rewrite Er. cbn [hbind].
    destruct (held_object _ _ _ _ _ _ I Hx) as (Hxl & _). pose proof (inv_len _ _ _ I) as Hlen. cbn [fst] in Hlen.
    destruct (Nat.eqb_spec x y) as [<-|Hne].
    + rewrite Hx. unfold object. rewrite nth_replace_same by lia. cbn [hbind o_n with_n Nat.eqb]. eauto.
    + assert (holds (replace vs x (Some Empty)) y = holds vs y) as Hy' by (unfold holds; now rewrite nth_replace_other by lia).
      destruct (holds vs y) as [w|] eqn:Hy.
      * destruct (held_object _ _ _ _ _ _ I1 Hy') as (Hyl & oy & Eoy & Sly). rewrite Eoy. cbn [hbind]. destruct w as [|n|w].
        -- destruct Sly as (_ & -> & _). cbn [Nat.eqb]. eauto.
        -- destruct (copy_unset _ _ _ _ Sly) as [e E]. destruct Sly as (Hn & -> & _). destruct (Nat.eqb_spec n 0); [lia|]. rewrite E. cbn [hbind]. eauto.
        -- destruct (copy_full _ _ _ _ Sly) as (o' & h' & E & C & Sl'). destruct Sly as (G & -> & _).
           destruct (Nat.eqb_spec (length (coords w)) 0) as [E0|_]; [destruct G as (_ & _ & Gn & _); lia|].
           rewrite E. cbn [hbind]. do 2 eexists. split; [reflexivity|].
           rewrite <- (replace_replace vs x (Some Empty)). eapply inv_update; [exact I1|now rewrite replace_length| |exact Sl'].
           assert (own1 x = []) as ->; [|exact C].
           destruct (inv_get _ _ _ _ x (Some Empty) I1) as (_ & o2 & E2 & S2); [now apply nth_replace_same|].
           destruct o2; [apply S2|destruct S2].
      * destruct (no_object _ _ _ _ _ I1 Hy') as [e ->]. cbn [hbind]. eauto.
  - destruct Hp as (P0 & P1 & P2). destruct (holds vs x) as [v|] eqn:Hx.
    2:{ destruct (no_object _ _ _ _ _ I Hx) as [e E]. rewrite E. cbn [hbind]. eauto. }
    destruct (held_object _ _ _ _ _ _ I Hx) as (Hxl & o & Eo & Sl). rewrite Eo. cbn [hbind]. destruct v as [|n|v].
    + destruct (enlarge_empty s0 s1 s2 _ _ _ Sl) as [e ->]. cbn [hbind]. eauto.
    + destruct (enlarge_unset s0 s1 s2 _ _ _ _ Sl) as [e ->]. cbn [hbind]. eauto.
    + destruct (enlarge_ok s0 s1 s2 v o h _ P0 P1 P2 Sl) as (o' & h' & E & new & C & Sl'). rewrite E. cbn [hbind].
      do 2 eexists. split; [reflexivity|]. eapply inv_update; eauto.
  - destruct (holds vs x) as [v|] eqn:Hx.
    2:{ destruct (no_object _ _ _ _ _ I Hx) as [e E]. rewrite E. cbn [hbind]. eauto. }
    destruct (held_object _ _ _ _ _ _ I Hx) as (Hxl & o & Eo & Sl). rewrite Eo. cbn [hbind].
    destruct (destroy_ok _ _ _ _ Sl) as (h' & E & L & C & Dd). rewrite E. cbn [hbind]. do 2 eexists. split; [reflexivity|].
    eapply inv_update; eauto. reflexivity.
Qed.
Theorem run_meaning l : forall vs s own, inv vs s own -> Forall enlarges_properly l ->
  match meaning_all l vs with
  | Some vs' => exists s' own', run l s = HOk s' /\ inv vs' s' own'
  | None => exists e, run l s = HErr e
  end.
Proof.
  induction l as [|c l IH]; intros vs s own I F; cbn [meaning_all run]; [eauto|].
  inversion F as [|? ? Hc Hl]; subst. pose proof (step_meaning c vs s own I Hc) as H. destruct (meaning c vs) as [vs1|].
  - destruct H as (s1 & own1 & -> & I1). cbn [hbind]. eapply IH; eauto.
  - destruct H as [e ->]. cbn [hbind]. eauto.
Qed.

(** ** Memory in use *)
Lemma tree_count h dims : forall b own f, tree h dims b own f -> length own = block_count dims.
Proof.
  induction dims as [|n [|m r] IH]; intros b own f T; [easy| |].
  - destruct T as [-> _]. cbn [block_count length]. lia.
  - destruct T as (qs & owns & Lq & Lo & -> & _ & H). change (block_count (n :: m :: r)) with (S (n * block_count (m :: r))). cbn [length]. f_equal.
    rewrite <- Lo. assert (forall o, In o owns -> length o = block_count (m :: r)) as G.
    { intros o Ho. destruct (In_nth _ _ [] Ho) as (i & Hi & <-). eapply (IH (nth i qs 0)). apply (H i). lia. }
    clear -G. induction owns as [|o owns IHo]; [reflexivity|]. cbn [concat length]. rewrite app_length, IHo, G; cbn; [lia|now left|].
    intros o' Ho'. apply G. now right.
Qed.
Lemma arrays_count h o own fb fo fn fc : arrays h o own fb fo fn fc -> length own = o_n o + 7.
Proof.
  intros (b & p & a & c & o1 & o2 & o3 & o4 & _ & _ & _ & _ & -> & _ & T1 & T2 & T3 & T4).
  rewrite !app_length, (tree_count _ _ _ _ _ T1), (tree_count _ _ _ _ _ T2), (tree_count _ _ _ _ _ T3), (tree_count _ _ _ _ _ T4). cbn [block_count]. lia.
Qed.
Lemma slot_count h o v own : slot h o v own -> length own = needed v.
Proof.
  destruct o as [o|], v as [[|n|v]|]; cbn [slot needed]; try easy.
  - now intros [-> _].
  - intros (_ & <- & A). eapply arrays_count; eauto.
  - intros (_ & <- & A). eapply arrays_count; eauto.
  - now intros ->.
Qed.
Definition aliveb (b : option (list (option Z))) : bool := match b with Some _ => true | None => false end.
Lemma filter_positions (h : heap) k :
  length (filter aliveb h) = length (filter (fun x => match nth_error h (x - k) with Some b => aliveb b | None => false end) (seq k (length h))).
Proof.
  revert k. induction h as [|b h IH]; intros k; [reflexivity|]. cbn [length seq filter]. rewrite Nat.sub_diag. cbn [nth_error].
  assert (filter (fun x => match nth_error (b :: h) (x - k) with Some b0 => aliveb b0 | None => false end) (seq (S k) (length h)) =
          filter (fun x => match nth_error h (x - S k) with Some b0 => aliveb b0 | None => false end) (seq (S k) (length h))) as E.
  { apply filter_ext_in. intros x Hx. apply in_seq in Hx. replace (x - k) with (S (x - S k)) by lia. reflexivity. }
  rewrite E. destruct (aliveb b); cbn [length]; now rewrite (IH (S k)).
Qed.
Theorem memory_needed vs s own : inv vs s own -> in_use (snd s) = needed_all vs.
Proof.
  intros I. destruct s as [st h]. cbn [snd]. unfold in_use. change (fun b : option (list (option Z)) => match b with Some _ => true | None => false end) with aliveb.
  rewrite (filter_positions h 0). set (L := filter _ _).
  assert (Permutation L (concat (map own (seq 0 (length vs))))) as P.
  { apply NoDup_Permutation.
    - apply NoDup_filter, seq_NoDup.
    - assert (forall k m, k + m <= length vs -> NoDup (concat (map own (seq k m)))) as G; [|apply G; lia].
      intros k m. revert k. induction m as [|m IH]; intros k Hk; cbn [seq map concat]; [constructor|].
      apply NoDup_app_disjoint; [|apply IH; lia|].
      + destruct (inv_slot _ _ _ I k ltac:(lia)) as (o & v & _ & _ & Sl). eapply slot_NoDup; eauto.
      + intros b Hb Hc. apply in_concat in Hc. destruct Hc as (l & Hl & Hb'). apply in_map_iff in Hl. destruct Hl as (j & <- & Hj). apply in_seq in Hj.
        revert Hb'. apply (inv_apart _ _ _ I k j b); auto; lia.
    - intros b. unfold L. rewrite filter_In, in_seq, Nat.sub_0_r. split.
      + intros [_ Ha]. destruct (inv_all _ _ _ I b) as (x & Hx & Hb).
        { cbn [snd]. unfold alive. destruct (nth_error h b) as [[c|]|]; try discriminate. eauto. }
        apply in_concat. exists (own x). split; [|exact Hb]. apply in_map, in_seq. lia.
      + intros Hc. apply in_concat in Hc. destruct Hc as (l & Hl & Hb). apply in_map_iff in Hl. destruct Hl as (x & <- & Hx). apply in_seq in Hx.
        destruct (inv_slot _ _ _ I x ltac:(lia)) as (o & v & _ & _ & Sl). cbn [snd] in Sl. pose proof (slot_alive _ _ _ _ _ Sl Hb) as Ha.
        split; [split; [lia|now apply alive_lt]|]. destruct Ha as [c ->]. reflexivity. }
  rewrite (Permutation_length P). unfold needed_all.
  assert (forall k m, k + m = length vs -> length (concat (map own (seq k m))) = list_sum (map needed (skipn k vs))) as G.
  { intros k m. revert k. induction m as [|m IH]; intros k Hk; cbn [seq map concat].
    - rewrite skipn_all2 by lia. reflexivity.
    - destruct (inv_slot _ _ _ I k ltac:(lia)) as (o & v & _ & Ev & Sl). rewrite app_length, (slot_count _ _ _ _ Sl), (IH (S k)) by lia.
      assert (skipn k vs = v :: skipn (S k) vs) as ->; [|reflexivity].
      clear -Ev. revert k Ev. induction vs as [|w vs IH]; intros [|k] Ev; try discriminate; [cbn in Ev; injection Ev as ->; reflexivity|]. exact (IH k Ev). }
  rewrite (G 0) by lia. reflexivity.
Qed.
