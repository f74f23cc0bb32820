(** Proofs about the memory of neighbour lists: arrays, structures, vectors. *)
From Coq Require Import Permutation.
From Verif Require Import NestModel NestSpec NestProofs LifeModel LifeSpec LifeProofs LifeInv LifeMake LifeEnlarge LifeSteps OwnModel OwnSep.
Local Open Scope nat_scope.
Local Open Scope list_scope.

Definition arr (p : option nat) (l : list Z) : asn := fun h own => exists q, p = Some q /\ own = [q] /\ nth_error h q = Some (Some (map Some l)).
Definition stru (o : obj) (v : value) : asn := fun h own => slot h (Some o) (Some (Full v)) own.
Definition work (dims : list nat) (b : nat) : asn := fun h own => NoDup own /\ tree h dims b own (fun _ => None).
(** An array of vectors of which the first ones have values. *)
Definition jag (p : option nat) (rows : list (list Z)) (k : nat) : asn := fun h own => exists b qs, p = Some b /\ own = b :: qs /\ NoDup own /\
  nth_error h b = Some (Some (ptrs qs ++ repeat None k)) /\ Forall2 (fun q r => nth_error h q = Some (Some (map Some r))) qs rows.

Lemma arr_stable p l : stable (arr p l).
Proof.
  intros h own (q & Ep & -> & E). split; [intros x [<-|[]]; eexists; eauto|]. split; [repeat constructor; easy|].
  intros h' A. exists q. repeat split; auto. rewrite A; [exact E|now left].
Qed.
Lemma stru_stable o v : stable (stru o v).
Proof.
  intros h own Sl. split; [intros x Hx; exact (slot_alive _ _ _ _ _ Sl Hx)|]. split; [exact (slot_NoDup _ _ _ _ Sl)|].
  intros h' A. unfold stru in *. destruct Sl as (G & En & Ar). split; [exact G|]. split; [exact En|]. eapply arrays_frame; eauto.
Qed.
Lemma work_stable dims b : stable (work dims b).
Proof.
  intros h own (N & T). split; [intros x Hx; eapply tree_alive; eauto|]. split; [exact N|]. intros h' A. split; [exact N|]. eapply tree_frame; eauto.
Qed.
Lemma Forall2_in_l {A B} (P : A -> B -> Prop) l l' x : Forall2 P l l' -> In x l -> exists y, In y l' /\ P x y.
Proof. induction 1 as [|a b l l' Hp F IH]; [easy|]. intros [<-|Hx]; [exists b; split; [now left|auto]|]. destruct (IH Hx) as (y & Hy & H). exists y. split; [now right|auto]. Qed.
Lemma Forall2_impl_in {A B} (P Q : A -> B -> Prop) l l' : Forall2 P l l' -> (forall x y, In x l -> P x y -> Q x y) -> Forall2 Q l l'.
Proof. induction 1 as [|a b l l' Hp F IH]; constructor; [apply H; auto; now left|]. apply IH. intros x y Hx. apply H. now right. Qed.
Lemma Forall2_len {A B} (P : A -> B -> Prop) l l' : Forall2 P l l' -> length l = length l'.
Proof. induction 1; cbn [length]; congruence. Qed.
Lemma jag_stable p rows k : stable (jag p rows k).
Proof.
  intros h own (b & qs & Ep & -> & N & E & F). split; [|split; [exact N|]].
  - intros x [<-|Hx]; [eexists; eauto|]. destruct (Forall2_in_l _ _ _ _ F Hx) as (r & _ & Er). eexists; eauto.
  - intros h' A. exists b, qs. repeat split; auto; [rewrite A; [exact E|now left]|]. eapply Forall2_impl_in; [exact F|]. intros x y Hx Hy.
    cbn beta in Hy. rewrite A; [exact Hy|now right].
Qed.
Ltac stab := repeat (apply Forall_cons); try apply Forall_nil; try apply arr_stable; try apply stru_stable; try apply work_stable; try apply jag_stable.

(** Sizes of the parts. *)
Definition sized (A : asn) (n : nat) : Prop := forall h own, A h own -> length own = n.
Lemma arr_sized p l : sized (arr p l) 1.
Proof. intros h own (q & _ & -> & _). reflexivity. Qed.
Lemma stru_sized o v : sized (stru o v) (length (coords v) + 7).
Proof. intros h own Sl. exact (slot_count _ _ _ _ Sl). Qed.
Lemma jag_sized p rows k : sized (jag p rows k) (1 + length rows).
Proof. intros h own (b & qs & _ & -> & _ & _ & F). cbn [length]. now rewrite (Forall2_len _ _ _ F). Qed.

(** ** From and to assertions about one part *)
Lemma spec_one {B} (op : heap -> hres (B * heap)) (A : asn) phi Q : stable A ->
  (forall h own, A h own -> exists a h' new, op h = HOk (a, h') /\ phi a /\ changes h h' own new /\ sep (Q a) h' new) -> spec op [A] phi Q.
Proof.
  intros St H h own S0. destruct (sep_one _ _ _ S0) as (o & HA & P & N). destruct (H h o HA) as (a & h' & new & E & Ph & C & S1).
  exists a, h', new. repeat split; auto; try apply S1; eapply changes_members; eauto; try (apply perm_members; now apply Permutation_sym); intros; reflexivity.
Qed.
Lemma act_one (op : heap -> hres heap) (A : asn) Q : stable A ->
  (forall h own, A h own -> exists h' new, op h = HOk h' /\ changes h h' own new /\ sep Q h' new) -> act op [A] Q.
Proof.
  intros St H h own S0. destruct (sep_one _ _ _ S0) as (o & HA & P & N). destruct (H h o HA) as (h' & new & E & C & S1).
  exists h', new. repeat split; auto; try apply S1; eapply changes_members; eauto; try (apply perm_members; now apply Permutation_sym); intros; reflexivity.
Qed.
Lemma reads_one {B} (op : heap -> hres B) (A : asn) a : (forall h own, A h own -> op h = HOk a) -> reads op [A] a.
Proof. intros H h own S0. destruct (sep_one _ _ _ S0) as (o & HA & _). eauto. Qed.
Lemma spec_nil {B} (op : heap -> hres (B * heap)) phi Q :
  (forall h, exists a h' new, op h = HOk (a, h') /\ phi a /\ changes h h' [] new /\ sep (Q a) h' new) -> spec op [] phi Q.
Proof. intros H h own S0. rewrite (sep_nil _ _ S0). apply H. Qed.

(** ** Arrays of numbers *)
Lemma tree_arr h n q f l : length l = n -> (forall i, i < n -> f [i] = nth_error l i) -> tree h [n] q [q] f <-> nth_error h q = Some (Some (map Some l)).
Proof.
  intros L Hf. assert (map (fun i => f [i]) (seq 0 n) = map Some l) as E.
  { apply nth_ext with (d := None) (d' := None); [now rewrite !map_length, seq_length|]. intros i Hi. rewrite map_length, seq_length in Hi.
    rewrite (nth_indep _ None (f [0])) by (rewrite map_length, seq_length; lia). rewrite (map_nth (fun i => f [i])). rewrite seq_nth by lia. cbn [plus].
    rewrite Hf by lia. rewrite (nth_indep _ None (Some 0%Z)) by (rewrite map_length; lia). rewrite (map_nth Some). apply nth_error_nth'. lia. }
  cbn [tree]. rewrite E. split; [intros [_ H]; exact H|auto].
Qed.
Lemma arr_tree h own p l : arr p l h own -> exists q, p = Some q /\ own = [q] /\ tree h [length l] q [q] (at1 l).
Proof. intros (q & Ep & -> & E). exists q. repeat split; auto. apply (tree_arr h (length l) q (at1 l) l); auto. Qed.
Lemma fresh_arr h h' l : length h' = length h + 1 -> agree (fun x => x < length h) h h' -> nth_error h' (length h) = Some (Some (map Some l)) ->
  changes h h' [] [length h] /\ sep [arr (Some (length h)) l] h' [length h].
Proof.
  intros L A E. split; [exact (fresh_changes h h' 1 L A)|]. apply one_sep; [|repeat constructor; easy]. exists (length h). auto.
Qed.
Lemma new_array_spec n (e : heap -> list nat -> hres Z) l : length l = n -> (forall h i, i < n -> exists z, e h [i] = HOk z /\ nth_error l i = Some z) ->
  spec (new_array [n] e) [] (fun _ => True) (fun b => [arr (Some b) l]).
Proof.
  intros L He. apply spec_nil. intros h.
  destruct (new_array_ok [n] e h (fun idx => match at1 l idx with Some z => HOk z | None => HErr OutOfBounds end)) as (h' & E & Lh & A & T).
  - discriminate.
  - intros idx h1 Hx _ _. apply within1 in Hx. destruct Hx as (i & -> & Hi). destruct (He h1 i Hi) as (z & -> & Ez). cbn [at1]. now rewrite Ez.
  - intros idx Hx. apply within1 in Hx. destruct Hx as (i & -> & Hi). destruct (He h i Hi) as (z & _ & Ez). cbn [at1]. rewrite Ez. eauto.
  - exists (length h), h', [length h]. split; [exact E|]. split; [exact I|]. apply fresh_arr; [rewrite Lh; cbn; lia|exact A|].
    replace (block_count [n]) with 1 in T by (cbn [block_count]; lia). cbn [seq] in T.
    apply (tree_arr h' n (length h) (fun idx => Some (val (match at1 l idx with Some z => HOk z | None => HErr OutOfBounds end))) l L); [|exact T].
    intros i Hi. cbn [at1]. destruct (nth_error l i) as [z|] eqn:Ez; [reflexivity|]. apply nth_error_None in Ez. lia.
Qed.
Lemma loops_1 n : loops [n] = map (fun i => [i]) (seq 0 n).
Proof. cbn [loops]. induction (seq 0 n) as [|i l IH]; [reflexivity|]. change (flat_map (fun i => map (cons i) [[]]) (i :: l)) with ([i] :: flat_map (fun i => map (cons i) [[]]) l). rewrite IH. reflexivity. Qed.
Lemma copy_array_eq n p h : copy_array n (fun _ => p) h = hbind (new_array [n] (fun h idx => deref p (fun q => read_at h q idx)) h) (fun '(b, h) => HOk (Some b, h)).
Proof.
  unfold copy_array, new_array. destruct (allocate_nested [n] false h) as [[b h1]|e]; [|reflexivity]. cbn [hbind].
  rewrite loops_1, map_map. destruct (assigns _ b h1); reflexivity.
Qed.
Lemma copy_array_spec n p l : length l = n -> spec (copy_array n (fun _ => p)) [arr p l] (fun _ => True) (fun p' => [arr p' l; arr p l]).
Proof.
  intros L. apply spec_one; [apply arr_stable|]. intros h own Ha. pose proof Ha as (q0 & _ & Eo & Eh). destruct (arr_tree _ _ _ _ Ha) as (q & -> & Eq & T). rewrite copy_array_eq. cbn [deref].
  destruct (new_array_ok [n] (fun h idx => read_at h q idx) h (got (at1 l))) as (h' & E & Lh & A & T').
  - discriminate.
  - rewrite <- L. eapply outcome_read; eauto.
  - intros idx Hx. apply within1 in Hx. destruct Hx as (i & -> & Hi). unfold got. cbn [at1]. destruct (nth_error l i) as [z|] eqn:Ez; [eauto|]. apply nth_error_None in Ez. lia.
  - rewrite E. cbn [hbind]. exists (Some (length h)), h', ([length h] ++ own). split; [reflexivity|]. split; [exact I|].
    assert (nth_error h' (length h) = Some (Some (map Some l))) as E'.
    { replace (block_count [n]) with 1 in T' by (cbn [block_count]; lia). cbn [seq] in T'.
      apply (tree_arr h' n (length h) (fun idx => Some (val (got (at1 l) idx))) l L); [|exact T']. intros i Hi. unfold got. cbn [at1].
      destruct (nth_error l i) as [z|] eqn:Ez; [reflexivity|]. apply nth_error_None in Ez. lia. }
    destruct (fresh_arr h h' l) as (C & S1); [rewrite Lh; cbn; lia|exact A|exact E'|].
    destruct (arr_stable _ _ _ _ Ha) as (Al & N & Fr). split.
    + change own with ([] ++ own) at 1. now apply changes_frame.
    + change [arr (Some (length h)) l; arr (Some q) l] with ([arr (Some (length h)) l] ++ [arr (Some q) l]). apply sep_join; [exact S1| |].
      * apply one_sep; [|exact N]. apply Fr. intros x Hx. apply A. apply alive_lt. auto.
      * intros x [<-|[]] Hx. pose proof (alive_lt _ _ (Al _ Hx)). lia.
Qed.
Lemma read_array_reads n p l : length l = n -> reads (read_array n p) [arr p l] l.
Proof.
  intros L. apply reads_one. intros h own Ha. destruct (arr_tree _ _ _ _ Ha) as (q & -> & _ & T). cbn [deref read_array].
  unfold read_array. cbn [deref]. apply hmap_ok0; [exact L|]. intros i z Ez.
  rewrite (read_spec [length l] h q [q] (at1 l) [i] T); [|apply within_1; apply nth_error_Some; congruence]. cbn [at1]. now rewrite Ez.
Qed.
Lemma freed (h : heap) own h' : length h' = length h -> agree (fun x => ~ In x own) h h' -> (forall x, In x own -> nth_error h' x = Some None) -> changes h h' own [].
Proof.
  intros L A F. split; [lia|]. split; [intros x _ Hx; now apply A|]. split; [auto|]. split; [lia|easy].
Qed.
Lemma free_array_act p l : act (free_array p) [arr p l] [].
Proof.
  apply act_one; [apply arr_stable|]. intros h own Ha. destruct (arr_tree _ _ _ _ Ha) as (q & -> & -> & T). unfold free_array. cbn [deref].
  destruct (free_tree [length l] h q [q] (at1 l) [] T) as (h' & E & L & A & F); [repeat constructor; easy|reflexivity|].
  exists h', []. split; [exact E|]. split; [now apply freed|apply nil_sep].
Qed.

(** ** Working memory *)
Lemma allocate_spec dims : dims <> [] -> spec (allocate_nested dims false) [] (fun _ => True) (fun b => [work dims b]).
Proof.
  intros Hd. apply spec_nil. intros h. destruct (allocate_tree dims false h Hd) as (h' & E & L & A & T).
  exists (length h), h', (seq (length h) (block_count dims)). split; [exact E|]. split; [exact I|]. split; [now apply fresh_changes|].
  apply one_sep; [|apply seq_NoDup]. split; [apply seq_NoDup|exact T].
Qed.
Lemma free_work dims b : act (fun h => free_nested (removelast dims) h b) [work dims b] [].
Proof.
  apply act_one; [apply work_stable|]. intros h own (N & T). destruct (free_tree dims h b own _ (removelast dims) T N eq_refl) as (h' & E & L & A & F).
  exists h', []. split; [exact E|]. split; [now apply freed|apply nil_sep].
Qed.
Lemma scratch_spec {B} dims (k : heap -> hres (B * heap)) P phi Q : dims <> [] -> Forall stable P -> (forall a, Forall stable (Q a)) -> spec k P phi Q ->
  spec (scratch dims k) P phi Q.
Proof.
  intros Hd SP SQ Hk h own S0. unfold scratch. pose proof (now_start _ _ _ S0) as N0.
  destruct (now_spec _ [] _ _ P _ _ _ _ ltac:(constructor) SP (allocate_spec dims Hd) N0 (Permutation_refl _)) as (b & h1 & -> & _ & N1). cbn [hbind app] in *.
  destruct (now_spec k P phi Q [work dims b] _ _ _ _ SP ltac:(stab) Hk N1) as (a & h2 & -> & Ph & N2); [apply Permutation_sym, Permutation_cons_append|]. cbn [hbind].
  destruct (now_act _ [work dims b] [] (Q a) _ _ _ _ ltac:(stab) (SQ a) (free_work dims b) N2) as (h3 & -> & N3); [apply Permutation_cons_append|]. cbn [hbind app] in *.
  destruct N3 as (new & C & S3). exists a, h3, new. auto.
Qed.

(** ** Structures *)
Lemma stru_facts o v h own : stru o v h own -> good v /\ o_n o = length (coords v).
Proof. intros (G & En & _). auto. Qed.
Lemma now_fact {h0 own0 l h} : now h0 own0 l h -> forall o v, In (stru o v) l -> good v /\ o_n o = length (coords v).
Proof.
  intros (own & _ & owns & F & _) o v Hi. destruct (Forall2_in_l _ _ _ _ F Hi) as (ow & _ & Hs). eapply stru_facts; eauto.
Qed.
Lemma sep_fact {l h own} : sep l h own -> forall o v, In (stru o v) l -> good v /\ o_n o = length (coords v).
Proof. intros S0. exact (now_fact (now_start _ _ _ S0)). Qed.
Lemma copy_from_spec r v : spec (copy_from r) [stru r v] (fun _ => True) (fun o => [stru o v; stru r v]).
Proof.
  apply spec_one; [apply stru_stable|]. intros h own Sl. destruct (copy_full _ _ _ _ Sl) as (o & h' & E & C & Sl').
  destruct (stru_stable _ _ _ _ Sl) as (Al & N & Fr). exists o, h', (seq (length h) (length (coords v) + 7) ++ own). split; [exact E|]. split; [exact I|]. split.
  - change own with ([] ++ own) at 1. now apply changes_frame.
  - change [stru o v; stru r v] with ([stru o v] ++ [stru r v]). apply sep_join.
    + apply one_sep; [exact Sl'|apply seq_NoDup].
    + apply one_sep; [|exact N]. apply Fr. intros x Hx. destruct C as (_ & F & _). apply F; [apply alive_lt; auto|easy].
    + intros x Hx H2. apply in_seq in Hx. pose proof (alive_lt _ _ (Al x H2)). lia.
Qed.
Lemma destroy_act o v : act (destroy o) [stru o v] [].
Proof.
  apply act_one; [apply stru_stable|]. intros h own Sl. destruct (destroy_ok _ _ _ _ Sl) as (h' & E & L & C & _).
  exists h', []. split; [exact E|]. split; [exact C|apply nil_sep].
Qed.
Lemma release_act o v : act (release o) [stru o v] [].
Proof.
  intros h own S0. destruct (sep_fact S0 o v) as ((_ & _ & G & _) & En); [now left|]. destruct (destroy_act o v h own S0) as (h' & new & E & H).
  exists h', new. split; [|exact H]. unfold destroy in E. destruct (Nat.eqb_spec (o_n o) 0); [lia|exact E].
Qed.
Lemma make_supercell_spec s0 s1 s2 o v : 0 < s0 -> 0 < s1 -> 0 < s2 ->
  spec (make_supercell s0 s1 s2 o) [stru o v] (fun _ => True) (fun o' => [stru o' (enlarged s0 s1 s2 v)]).
Proof.
  intros H0 H1 H2. apply spec_one; [apply stru_stable|]. intros h own Sl. destruct (enlarge_ok s0 s1 s2 v o h own H0 H1 H2 Sl) as (o' & h' & E & new & C & Sl').
  exists o', h', new. split; [exact E|]. split; [exact I|]. split; [exact C|]. apply one_sep; [exact Sl'|]. eapply slot_NoDup; eauto.
Qed.
Lemma shown_reads o v : reads (shown o) [stru o v] (print_of v).
Proof. apply reads_one. intros h own Sl. unfold shown. rewrite (show_full _ _ _ _ Sl). reflexivity. Qed.
Lemma construct_copy_spec st v : spec (construct_copy st) [stru st v] (fun _ => True) (fun o => [stru o v; stru st v]).
Proof.
  intros h own S0. destruct (sep_fact S0 st v) as ((_ & _ & G & _) & En); [now left|]. unfold construct_copy.
  destruct (Nat.eqb_spec (o_n st) 0); [lia|]. exact (copy_from_spec st v h own S0).
Qed.
Lemma by_value_spec {B} st v (k : obj -> heap -> hres (B * heap)) phi Q : (forall a, Forall stable (Q a)) ->
  (forall p, spec (k p) [stru p v] phi (fun a => stru p v :: Q a)) -> spec (by_value st k) [stru st v] phi (fun a => stru st v :: Q a).
Proof.
  intros SQ Hk h own S0. unfold by_value. pose proof (now_start _ _ _ S0) as N0.
  destruct (now_spec _ [stru st v] _ _ [] _ _ _ _ ltac:(stab) ltac:(stab) (construct_copy_spec st v) N0 ltac:(perm)) as (p & h1 & -> & _ & N1). cbn [hbind app] in *.
  destruct (now_spec (k p) [stru p v] phi _ [stru st v] _ _ _ _ ltac:(stab) ltac:(stab) (Hk p) N1 ltac:(perm)) as (a & h2 & -> & Ph & N2). cbn [hbind app] in *.
  destruct (now_act _ [stru p v] [] (Q a ++ [stru st v]) _ _ _ _ ltac:(stab) ltac:(apply Forall_app; split; [apply SQ|stab]) (destroy_act p v) N2 ltac:(perm)) as (h3 & -> & N3).
  cbn [hbind app] in *. destruct N3 as (new & C & S3). exists a, h3, new. split; [reflexivity|]. split; [exact Ph|]. split; [exact C|].
  eapply sep_perm; [|exact S3]. apply Permutation_sym, Permutation_cons_append.
Qed.

(** A structure with values or an empty one. *)
Definition structs (o : obj) (ov : option value) : list asn := match ov with None => [] | Some v => [stru o v] end.
Definition sized_as (o : obj) (ov : option value) : Prop := match ov with None => o_n o = 0 | Some _ => True end.
Lemma structs_stable o ov : Forall stable (structs o ov).
Proof. destruct ov; cbn [structs]; stab. Qed.
Lemma emptied_act o ov : sized_as o ov -> act (fun h => if o_n o =? 0 then HOk h else release o h) (structs o ov) [].
Proof.
  intros Hn h own S0. destruct ov as [v|].
  - destruct (sep_fact S0 o v) as ((_ & _ & G & _) & En); [now left|]. destruct (Nat.eqb_spec (o_n o) 0); [lia|]. exact (release_act o v h own S0).
  - cbn in Hn. rewrite Hn. cbn. exists h, own. split; [reflexivity|]. split; [apply changes_refl|exact S0].
Qed.
Lemma assign_structure_spec this ov r ov' : sized_as this ov -> sized_as r ov' ->
  spec (assign_structure this (Some r)) (structs this ov ++ structs r ov') (fun a => sized_as a ov') (fun a => structs a ov' ++ structs r ov').
Proof.
  intros Ht Hr h own S0. unfold assign_structure. pose proof (now_start _ _ _ S0) as N0.
  destruct (now_act _ _ _ (structs r ov') _ _ _ _ (structs_stable _ _) (structs_stable _ _) (emptied_act this ov Ht) N0 (Permutation_refl _)) as (h1 & -> & N1). cbn [hbind app] in *.
  destruct ov' as [v|].
  - destruct (now_fact N1 r v) as ((_ & _ & G & _) & En); [now left|]. destruct (Nat.eqb_spec (o_n r) 0); [lia|].
    destruct (now_spec _ [stru r v] _ _ [] _ _ _ _ ltac:(stab) ltac:(stab) (copy_from_spec r v) N1 (Permutation_refl _)) as (o & h2 & -> & _ & N2). cbn [app structs] in *.
    destruct N2 as (new & C & S2). exists o, h2, new. repeat split; try apply C; apply S2.
  - cbn in Hr. rewrite Hr. cbn [Nat.eqb]. destruct N1 as (new & C & S1). exists (with_n this 0), h1, new. repeat split; try apply C; apply S1.
Qed.
