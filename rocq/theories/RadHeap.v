(** Lemmas about the memory of radial functions. *)
From Coq Require Import Permutation.
From Verif Require Import HeapProofs RadModel RadSpec.
Local Open Scope nat_scope.
Local Open Scope list_scope.

Section Heap.
Context {V : Type}.
Notation memory := (memory V).
Notation cells := (cells V).
Implicit Types h : memory.

Definition alive h (b : nat) : bool := match nth_error h b with Some (Some _) => true | _ => false end.
Definition live h : list nat := filter (alive h) (seq 0 (length h)).
Lemma alive_lt h b : alive h b = true -> b < length h.
Proof. unfold alive. intros E. apply nth_error_Some. destruct (nth_error h b); congruence. Qed.
Lemma in_live h b : In b (live h) <-> alive h b = true.
Proof. unfold live. rewrite filter_In, in_seq. split; [tauto|]. intros E. split; auto. apply alive_lt in E. lia. Qed.
Lemma live_nodup h : NoDup (live h).
Proof. apply NoDup_filter, seq_NoDup. Qed.
Lemma in_use_live h : in_use V h = length (live h).
Proof.
  unfold live. enough (forall h k (f : nat -> bool), (forall b, f (k + b) = alive h b) -> in_use V h = length (filter f (seq k (length h)))) as H by (apply (H h 0); reflexivity).
  clear h. induction h as [|[c|] h IH]; intros k f E; cbn [in_use length seq filter]; [reflexivity| |].
  - pose proof (E 0) as E0. rewrite Nat.add_0_r in E0. rewrite E0. cbn. f_equal. apply IH. intros b. replace (S k + b) with (k + S b) by lia. rewrite E. reflexivity.
  - pose proof (E 0) as E0. rewrite Nat.add_0_r in E0. rewrite E0. cbn. apply IH. intros b. replace (S k + b) with (k + S b) by lia. rewrite E. reflexivity.
Qed.

(** From memory [h] in which [A] are in use to [h'] in which [B] are: nothing else changes. *)
Definition to h h' (A B : list nat) : Prop := forall R, Permutation (live h) (A ++ R) ->
  Permutation (live h') (B ++ R) /\ forall b, In b R -> nth_error h' b = nth_error h b.
Lemma to_refl h A : to h h A A.
Proof. intros R P. split; auto. Qed.
Lemma to_trans h h1 h2 A B C : to h h1 A B -> to h1 h2 B C -> to h h2 A C.
Proof. intros T1 T2 R P. destruct (T1 R P) as (P1 & F1). destruct (T2 R P1) as (P2 & F2). split; auto. intros b Hb. rewrite F2, F1; auto. Qed.
Lemma to_frame h h' A B F : to h h' A B -> to h h' (A ++ F) (B ++ F).
Proof.
  intros T R P. rewrite <- app_assoc in P. destruct (T _ P) as (P' & Fr). rewrite <- app_assoc. split; auto. intros b Hb. apply Fr, in_or_app. auto.
Qed.
Lemma to_perm h h' A B A' B' : to h h' A B -> Permutation A A' -> Permutation B B' -> to h h' A' B'.
Proof.
  intros T PA PB R P. destruct (T R) as (P' & F); [rewrite P; apply Permutation_app_tail; now symmetry|]. split; auto. rewrite P'. now apply Permutation_app_tail.
Qed.
Lemma to_frame_l h h' A B F : to h h' A B -> to h h' (F ++ A) (F ++ B).
Proof. intros T. eapply to_perm; [apply (to_frame _ _ _ _ F T)| |]; apply Permutation_app_comm. Qed.

Definition has h (A : list nat) : Prop := exists R, Permutation (live h) (A ++ R).
Lemma has_to h h' A B : has h A -> to h h' A B -> has h' B.
Proof. intros (R & P) T. exists R. now apply T. Qed.
Lemma has_to_frame h h' A B F : has h (A ++ F) -> to h h' A B -> has h' (B ++ F) /\ forall b, In b F -> nth_error h' b = nth_error h b.
Proof.
  intros (R & P) T. rewrite <- app_assoc in P. destruct (T _ P) as (P' & Fr). split; [exists R; now rewrite <- app_assoc|].
  intros b Hb. apply Fr, in_or_app. auto.
Qed.
Lemma has_perm h A B : has h A -> Permutation A B -> has h B.
Proof. intros (R & P) PB. exists R. rewrite P. now apply Permutation_app_tail. Qed.
Lemma has_part h A B : has h (A ++ B) -> has h A.
Proof. intros (R & P). exists (B ++ R). now rewrite app_assoc. Qed.
Lemma has_nodup h A : has h A -> NoDup A.
Proof. intros (R & P). pose proof (Permutation_NoDup P (live_nodup h)) as N. clear P. induction A as [|a A IH]; constructor; inversion N; subst; [intros Ha; apply H1, in_or_app; auto|auto]. Qed.
Lemma has_alive h A b : has h A -> In b A -> alive h b = true.
Proof. intros (R & P) Hb. apply in_live. rewrite P. apply in_or_app. auto. Qed.
Lemma has_nil h : has h [].
Proof. exists (live h). reflexivity. Qed.

(** *** Allocating and freeing *)
Lemma alive_app1 h c b : b < length h -> alive (h ++ [c]) b = alive h b.
Proof. intros L. unfold alive. now rewrite nth_error_app1. Qed.
Lemma live_app h c : Permutation (live (h ++ [Some c])) (length h :: live h).
Proof.
  unfold live. rewrite app_length. cbn [length]. rewrite seq_app, filter_app. cbn [seq filter Nat.add].
  unfold alive at 2. rewrite nth_error_app2, Nat.sub_diag by lia. cbn [nth_error].
  rewrite Permutation_app_comm. cbn [app]. constructor. replace (filter (alive (h ++ [Some c])) (seq 0 (length h))) with (filter (alive h) (seq 0 (length h))); [reflexivity|].
  apply filter_ext_in. intros b Hb. apply in_seq in Hb. now rewrite alive_app1 by lia.
Qed.
Lemma to_new h c : to h (h ++ [Some c]) [] [length h].
Proof.
  intros R P. cbn [app] in *. split; [now rewrite live_app, P|]. intros b Hb. apply (Permutation_in _ (Permutation_sym P)) in Hb. apply in_live, alive_lt in Hb.
  now apply nth_error_app1.
Qed.
Lemma nth_replace_same {A} (l : list A) b x : b < length l -> nth_error (replace l b x) b = Some x.
Proof. intros L. rewrite replace_nth, Nat.eqb_refl. apply Nat.ltb_lt in L. now rewrite L. Qed.
Lemma nth_replace_other {A} (l : list A) b x k : k <> b -> nth_error (replace l b x) k = nth_error l k.
Proof. intros D. rewrite replace_nth. apply Nat.eqb_neq in D. now rewrite D. Qed.
Lemma alive_replace h b c k : b < length h -> alive (replace h b c) k = if k =? b then match c with Some _ => true | None => false end else alive h k.
Proof.
  intros L. unfold alive. destruct (Nat.eqb_spec k b) as [->|D]; [rewrite nth_replace_same by auto|rewrite nth_replace_other by auto]; reflexivity.
Qed.
Lemma to_free h b : alive h b = true -> to h (replace h b None) [b] [].
Proof.
  intros Al R P. pose proof (alive_lt _ _ Al) as L. cbn [app] in *. pose proof (Permutation_NoDup P (live_nodup h)) as N. inversion N as [|? ? Nb NR]; subst. split.
  - apply NoDup_Permutation; [apply live_nodup|auto|]. intros x. rewrite in_live, alive_replace by auto. destruct (Nat.eqb_spec x b) as [->|D].
    + split; [discriminate|tauto].
    + rewrite <- in_live, P. cbn. intuition congruence.
  - intros x Hx. apply nth_replace_other. congruence.
Qed.
Lemma to_same h b c : alive h b = true -> to h (replace h b (Some c)) [b] [b].
Proof.
  intros Al R P. pose proof (alive_lt _ _ Al) as L. pose proof (Permutation_NoDup P (live_nodup h)) as N. inversion N as [|? ? Nb NR]; subst. split.
  - rewrite <- P. apply NoDup_Permutation; try apply live_nodup. intros x. rewrite !in_live, alive_replace by auto. destruct (Nat.eqb_spec x b) as [->|D]; [|reflexivity]. tauto.
  - intros x Hx. apply nth_replace_other. congruence.
Qed.
Lemma release_at h b : alive h b = true -> release V h (At b) = HOk (replace h b None).
Proof. unfold alive, release. destruct (nth_error h b) as [[c|]|]; congruence. Qed.

Lemma has_cons_free h b A : has h (b :: A) -> has (replace h b None) A.
Proof.
  intros H. destruct (has_to_frame h (replace h b None) [b] [] A H) as (H' & _); auto. apply to_free, (has_alive _ _ _ H). now left.
Qed.
Lemma release_all_ok bs : forall h, has h bs -> exists h', release_all V (map At bs) h = HOk h' /\ to h h' bs [].
Proof.
  induction bs as [|b bs IH]; intros h H; [exists h; split; [reflexivity|apply to_refl]|].
  pose proof (has_alive _ _ b H (or_introl eq_refl)) as Al. cbn [map]. unfold release_all. cbn [hfold]. rewrite release_at by auto. cbn [hbind].
  destruct (IH _ (has_cons_free _ _ _ H)) as (h' & E & T). exists h'. split; [exact E|]. eapply to_trans; [|exact T].
  apply (to_frame _ _ [b] [] bs), to_free, Al.
Qed.

(** *** Arrays *)
Definition arr h (b : nat) (l : list V) : Prop := nth_error h b = Some (Some (map Some l)).
Lemma arr_alive h b l : arr h b l -> alive h b = true.
Proof. unfold arr, alive. now intros ->. Qed.
Lemma read_arr h b l i d : arr h b l -> i < length l -> read V h (At b) i = HOk (nth i l d).
Proof. intros E L. unfold read, cells_at. rewrite E. cbn [hbind]. rewrite nth_error_map, (nth_error_nth' l d L). reflexivity. Qed.
Lemma hfold_snoc {A} (f : nat -> hres A) (g : nat -> A) n : (forall i, i < n -> f i = HOk (g i)) ->
  hfold (fun l ii => hbind (f ii) (fun v => HOk (l ++ [v]))) (seq 0 n) [] = HOk (map g (seq 0 n)).
Proof.
  induction n as [|n IH]; intros E; [reflexivity|]. rewrite seq_S, hfold_app, IH by (intros; apply E; lia). cbn [hbind hfold Nat.add]. rewrite E by lia. cbn [hbind].
  now rewrite map_app.
Qed.
Lemma map_nth_seq (l : list V) d : map (fun i => nth i l d) (seq 0 (length l)) = l.
Proof.
  induction l as [|x l IH]; [reflexivity|]. cbn [length seq map]. f_equal. rewrite <- seq_shift, map_map. exact IH.
Qed.
Lemma read_array_ok h b l : arr h b l -> read_array V h (length l) (At b) = HOk l.
Proof.
  intros E. destruct l as [|d l]; [reflexivity|]. unfold read_array. rewrite (hfold_snoc _ (fun i => nth i (d :: l) d)); [now rewrite map_nth_seq|].
  intros i L. now apply read_arr.
Qed.
Lemma read_arrays_ok h n bs ls : Forall2 (arr h) bs ls -> Forall (fun l => length l = n) ls -> read_arrays V h n (map At bs) = HOk ls.
Proof.
  intros F L. unfold read_arrays. enough (forall acc, hfold (fun l p => hbind (read_array V h n p) (fun a => HOk (l ++ [a]))) (map At bs) acc = HOk (acc ++ ls)) as H by apply H.
  induction F as [|b l bs ls E F IH]; intros acc; cbn [map hfold]; [now rewrite app_nil_r|]. inversion L as [|? ? Hl Ls]; subst. rewrite read_array_ok by auto. cbn [hbind].
  rewrite IH by auto. now rewrite <- app_assoc.
Qed.

(** *** Filling arrays, cell by cell *)
(** The blocks [bs] hold the first [k] members of [vs] and then the old cells. *)
Definition item : Type := nat * list V * cells.
Definition blk (i : item) : nat := fst (fst i).
Definition want (i : item) : list V := snd (fst i).
Definition old (i : item) : cells := snd i.
Definition part h (k : nat) (i : item) : Prop := nth_error h (blk i) = Some (Some (map Some (firstn k (want i)) ++ skipn k (old i))).
Definition fits (n : nat) (i : item) : Prop := length (want i) = n /\ length (old i) = n.
Definition filling h0 h (its : list item) (k : nat) : Prop :=
  length h = length h0 /\ (forall b, ~ In b (map blk its) -> nth_error h b = nth_error h0 b) /\ Forall (part h k) its.

Lemma firstn_S_nth (l : list V) k d : k < length l -> firstn (S k) l = firstn k l ++ [nth k l d].
Proof.
  revert k. induction l as [|v l IH]; intros k L; [cbn in L; lia|]. destruct k as [|k]; [reflexivity|].
  cbn [length] in L. change (firstn (S (S k)) (v :: l)) with (v :: firstn (S k) l). rewrite IH by lia. reflexivity.
Qed.
Lemma skipn_cons_nth {A} (l : list A) k : k < length l -> exists x, skipn k l = x :: skipn (S k) l.
Proof. revert k. induction l as [|v l IH]; intros k L; [cbn in L; lia|]. destruct k as [|k]; [exists v; reflexivity|]. cbn in L. destruct (IH k) as (x & E); [lia|]. exists x. exact E. Qed.
Lemma part_write h n i k d : part h k i -> fits n i -> k < n ->
  exists h', write V h (At (blk i)) k (nth k (want i) d) = HOk h' /\ part h' (S k) i /\ length h' = length h /\ forall b, b <> blk i -> nth_error h' b = nth_error h b.
Proof.
  intros P (Lw & Lo) Hk. pose proof P as P'. unfold part in P. unfold write, cells_at. rewrite P. cbn [hbind].
  assert (length (map Some (firstn k (want i))) = k) as Lf by (rewrite map_length, firstn_length; lia).
  assert (k <? length (map Some (firstn k (want i)) ++ skipn k (old i)) = true) as -> by (apply Nat.ltb_lt; rewrite app_length, skipn_length, Lf; lia).
  assert (blk i < length h) as Lb by (apply nth_error_Some; congruence).
  eexists. split; [reflexivity|]. split; [|split; [apply replace_length|intros b Db; now apply nth_replace_other]].
  unfold part. rewrite nth_replace_same by auto. do 2 f_equal.
  destruct (skipn_cons_nth (old i) k) as (x & Ex); [lia|]. rewrite Ex. rewrite (replace_app' _ _ _ _ k Lf).
  rewrite (firstn_S_nth _ _ d) by lia. rewrite map_app, <- app_assoc. reflexivity.
Qed.
Lemma part_read h n i k j d : part h k i -> fits n i -> k <= n -> j < k -> read V h (At (blk i)) j = HOk (nth j (want i) d).
Proof.
  intros P (Lw & Lo) Hk Hj. unfold part in P. unfold read, cells_at. rewrite P. cbn [hbind].
  rewrite nth_error_app1 by (rewrite map_length, firstn_length; lia). rewrite nth_error_map.
  assert (nth_error (firstn k (want i)) j = Some (nth j (want i) d)) as ->; [|reflexivity].
  rewrite <- (firstn_skipn k (want i)) at 2. rewrite app_nth1 by (rewrite firstn_length; lia). apply nth_error_nth'. rewrite firstn_length. lia.
Qed.
Lemma part_other h h' k i : part h k i -> nth_error h' (blk i) = nth_error h (blk i) -> part h' k i.
Proof. unfold part. now intros E ->. Qed.

(** A loop whose body takes the arrays from [k] to [k + 1] cells. *)
Lemma filling_loop h0 (its : list item) n (f : memory -> nat -> hres memory) :
  (forall h k, k < n -> filling h0 h its k -> exists h', f h k = HOk h' /\ filling h0 h' its (S k)) ->
  forall h, filling h0 h its 0 -> exists h', hfold f (seq 0 n) h = HOk h' /\ filling h0 h' its n.
Proof.
  intros St h F0. enough (forall m, m <= n -> exists h', hfold f (seq 0 m) h = HOk h' /\ filling h0 h' its m) as H by (apply H; lia).
  induction m as [|m IH]; intros L; [exists h; split; [reflexivity|auto]|]. destruct IH as (h1 & E1 & F1); [lia|].
  destruct (St h1 m) as (h2 & E2 & F2); [lia|auto|]. exists h2. split; auto. rewrite seq_S, hfold_app, E1. cbn [hbind hfold Nat.add]. rewrite E2. reflexivity.
Qed.
Lemma filling_all h0 h its n : filling h0 h its n -> Forall (fits n) its -> Forall (fun i => arr h (blk i) (want i)) its.
Proof.
  intros (_ & _ & P) F. rewrite Forall_forall in *. intros i Hi. specialize (P i Hi). destruct (F i Hi) as (Lw & Lo). unfold part in P. unfold arr.
  rewrite P, <- Lw, firstn_all, Lw, <- Lo, skipn_all, app_nil_r. reflexivity.
Qed.
Lemma filling_to h0 h its k : filling h0 h its k -> has h0 (map blk its) -> to h0 h (map blk its) (map blk its).
Proof.
  intros (L & Fr & P) H R PR. pose proof (Permutation_NoDup PR (live_nodup h0)) as N. split.
  - rewrite <- PR. apply NoDup_Permutation; try apply live_nodup. intros x. rewrite !in_live. destruct (in_dec Nat.eq_dec x (map blk its)) as [Hx|Hx].
    + rewrite (has_alive _ _ _ H Hx). apply in_map_iff in Hx. destruct Hx as (i & <- & Hi). rewrite Forall_forall in P. specialize (P i Hi). unfold part in P.
      unfold alive. rewrite P. tauto.
    + unfold alive. rewrite Fr by auto. reflexivity.
  - intros b Hb. apply Fr. intros Hb'. apply NoDup_remove_2 with (l := []) (l' := []) in N || idtac.
    clear - N Hb Hb'. induction (map blk its) as [|y l IH]; [easy|]. cbn in N. inversion N as [|? ? Ny Nl]; subst. destruct Hb' as [->|Hb']; [apply Ny, in_or_app; auto|auto].
Qed.
(** One write into each of the arrays, different blocks. *)
Lemma write_each h0 h its todo done n k d : its = done ++ todo -> NoDup (map blk its) -> Forall (fits n) its -> k < n ->
  length h = length h0 -> (forall b, ~ In b (map blk its) -> nth_error h b = nth_error h0 b) -> Forall (part h (S k)) done -> Forall (part h k) todo ->
  forall (X : Type) (xs : list X) (g : memory -> X -> hres memory),
  (forall h', (forall b, ~ In b (map blk its) -> nth_error h' b = nth_error h0 b) -> Forall2 (fun x i => g h' x = write V h' (At (blk i)) k (nth k (want i) d)) xs todo) ->
  exists h', hfold g xs h = HOk h' /\ filling h0 h' its (S k).
Proof.
  intros Eits N Fi Hk. revert h done Eits. induction todo as [|i todo IH]; intros h done Eits L Fr Pd Pt X xs g G.
  - specialize (G h Fr). inversion G; subst. exists h. split; [reflexivity|]. rewrite app_nil_r in *. repeat split; auto.
  - pose proof (G h Fr) as G1. inversion G1 as [|x ? xs' ? Gx Gxs E1 E2]; subst xs. cbn [hfold]. rewrite Gx.
    inversion Pt as [|? ? Pi Pt']; subst. assert (fits n i) as Fii by (rewrite Forall_forall in Fi; apply Fi, in_or_app; right; now left).
    destruct (part_write h n i k d Pi Fii Hk) as (h1 & Ew & P1 & L1 & O1). rewrite Ew. cbn [hbind].
    assert (forall j, In j done \/ In j todo -> blk j <> blk i) as Dj.
    { intros j Hj E. rewrite map_app in N. cbn [map] in N. apply NoDup_remove_2 in N. apply N. rewrite <- E. apply in_or_app.
      destruct Hj; [left|right]; now apply in_map. }
    apply (IH h1 (done ++ [i])); auto; try congruence.
    + now rewrite <- app_assoc.
    + intros b Hb. rewrite O1; [now apply Fr|]. intros ->. apply Hb. rewrite map_app. apply in_or_app. right. now left.
    + apply Forall_app. split; [|repeat constructor; auto]. rewrite Forall_forall in *. intros j Hj. eapply part_other; [apply Pd; auto|]. apply O1, Dj. auto.
    + rewrite Forall_forall in *. intros j Hj. eapply part_other; [apply Pt'; auto|]. apply O1, Dj. auto.
    + intros h' Fr'. specialize (G h' Fr'). inversion G; subst. auto.
Qed.
Lemma fill_step h0 its n h k d : NoDup (map blk its) -> Forall (fits n) its -> k < n -> filling h0 h its k ->
  forall (X : Type) (xs : list X) (g : memory -> X -> hres memory),
  (forall h', (forall b, ~ In b (map blk its) -> nth_error h' b = nth_error h0 b) -> Forall2 (fun x i => g h' x = write V h' (At (blk i)) k (nth k (want i) d)) xs its) ->
  exists h', hfold g xs h = HOk h' /\ filling h0 h' its (S k).
Proof. intros N F Hk (L & Fr & P). apply (write_each h0 h its its [] n k d); auto. Qed.

(** *** Allocation of several arrays *)
Lemma alloc_all_eq k n : forall h, alloc_all V k n h = (map At (seq (length h) k), h ++ repeat (Some (repeat None n)) k).
Proof.
  induction k as [|k IH]; intros h; cbn [alloc_all seq map repeat]; [now rewrite app_nil_r|]. unfold alloc. rewrite IH, app_length, <- app_assoc. cbn [length app].
  now rewrite Nat.add_1_r.
Qed.
Lemma alloc_all_to k n h : to h (h ++ repeat (Some (repeat None n)) k) [] (seq (length h) k).
Proof.
  revert h. induction k as [|k IH]; intros h; cbn [repeat seq]; [rewrite app_nil_r; apply to_refl|].
  eapply to_trans; [apply (to_new h (repeat None n))|]. replace (h ++ Some (repeat None n) :: repeat (Some (repeat None n)) k) with ((h ++ [Some (repeat None n)]) ++ repeat (Some (repeat None n)) k) by (now rewrite <- app_assoc).
  replace (S (length h)) with (length (h ++ [Some (repeat None n)])) by (rewrite app_length; cbn; lia).
  apply (to_perm _ _ ([] ++ [length h]) (seq (length (h ++ [Some (repeat None n)])) k ++ [length h])); [apply to_frame, IH|reflexivity|]. rewrite Permutation_app_comm. reflexivity.
Qed.
Lemma alloc_all_nth k n h b : In b (seq (length h) k) -> nth_error (h ++ repeat (Some (repeat (@None V) n)) k) b = Some (Some (repeat None n)).
Proof.
  intros Hb. apply in_seq in Hb. rewrite nth_error_app2 by lia. apply nth_error_repeat. lia.
Qed.
Definition new_items (bs : list nat) (ls : list (list V)) (n : nat) : list item := map (fun bl => (fst bl, snd bl, repeat None n)) (combine bs ls).
Lemma new_items_blk bs ls n : length bs = length ls -> map blk (new_items bs ls n) = bs.
Proof. unfold new_items. rewrite map_map. revert ls. induction bs as [|b bs IH]; intros [|l ls] E; try discriminate; [reflexivity|]. cbn. f_equal. apply IH. now injection E. Qed.
Lemma new_items_fits bs ls n : Forall (fun l => length l = n) ls -> Forall (fits n) (new_items bs ls n).
Proof.
  intros F. unfold new_items. rewrite Forall_forall in *. intros i Hi. apply in_map_iff in Hi. destruct Hi as ([b l] & <- & Hi). split; cbn; [|apply repeat_length].
  apply F. now apply in_combine_r in Hi.
Qed.
Lemma new_items_part bs ls n h : (forall b, In b bs -> nth_error h b = Some (Some (repeat None n))) -> Forall (part h 0) (new_items bs ls n).
Proof.
  intros E. unfold new_items. rewrite Forall_forall. intros i Hi. apply in_map_iff in Hi. destruct Hi as ([b l] & <- & Hi). unfold part. cbn.
  apply E. now apply in_combine_l in Hi.
Qed.
Lemma new_items_arr bs ls n h : length bs = length ls -> Forall (fun i => arr h (blk i) (want i)) (new_items bs ls n) -> Forall2 (arr h) bs ls.
Proof.
  revert ls. induction bs as [|b bs IH]; intros [|l ls] E F; try discriminate; constructor; inversion F; subst; auto.
Qed.
(** New arrays with given contents, if the loop writes them. *)
Lemma new_filled n ls (d : V) (X : Type) (xs : list X) (g : nat -> memory -> X -> hres memory) h : Forall (fun l => length l = n) ls ->
  let bs := seq (length h) (length ls) in
  (forall k h', k < n -> (forall b, b < length h -> nth_error h' b = nth_error h b) ->
     Forall2 (fun x bl => g k h' x = write V h' (At (fst bl)) k (nth k (snd bl) d)) xs (combine bs ls)) ->
  exists h', hfold (fun h ii => hfold (g ii) xs h) (seq 0 n) (h ++ repeat (Some (repeat None n)) (length ls)) = HOk h' /\ to h h' [] bs /\ Forall2 (arr h') bs ls.
Proof.
  intros L bs G. set (h0 := h ++ repeat (Some (repeat None n)) (length ls)). set (its := new_items bs ls n).
  assert (length bs = length ls) as Lb by apply seq_length.
  assert (map blk its = bs) as Eb by (now apply new_items_blk).
  assert (NoDup (map blk its)) as N by (rewrite Eb; apply seq_NoDup).
  assert (Forall (fits n) its) as Fi by (now apply new_items_fits).
  assert (filling h0 h0 its 0) as F0. { split; [reflexivity|]. split; [reflexivity|]. apply new_items_part. intros b. apply alloc_all_nth. }
  destruct (filling_loop h0 its n (fun h ii => hfold (g ii) xs h)) with (h := h0) as (h' & E & F); auto.
  { intros h1 k Hk F1. apply (fill_step h0 its n h1 k d N Fi Hk F1). intros h2 Fr. assert (forall b, b < length h -> nth_error h2 b = nth_error h b) as Fr'.
    { intros b Hb. rewrite Fr; [now apply nth_error_app1|]. rewrite Eb. unfold bs. rewrite in_seq. lia. }
    specialize (G k h2 Hk Fr'). unfold its, new_items. revert G. generalize (combine bs ls). intros c G. induction G; constructor; auto. }
  exists h'. split; [exact E|]. split; [|apply (new_items_arr bs ls n); auto; eapply filling_all; eauto].
  assert (to h h0 [] bs) as T0 by apply alloc_all_to. apply (to_trans _ _ _ _ _ _ T0). rewrite <- Eb. apply (filling_to _ _ _ n F). rewrite Eb. exact (has_to h h0 [] bs (has_nil h) T0).
Qed.
Lemma fill_new (v : V) n k h : exists h', fill V v n (map At (seq (length h) k)) (h ++ repeat (Some (repeat None n)) k) = HOk h' /\
  to h h' [] (seq (length h) k) /\ Forall2 (arr h') (seq (length h) k) (repeat (repeat v n) k).
Proof.
  destruct (new_filled n (repeat (repeat v n) k) v pointer (map At (seq (length h) k)) (fun ii h p => write V h p ii v) h) as (h' & E & T & F).
  - apply Forall_forall. intros l Hl. apply repeat_spec in Hl. subst. apply repeat_length.
  - intros j h' Hj _. rewrite repeat_length. generalize (length h) as a. induction k as [|k IH]; intros a; cbn [seq map combine repeat]; constructor; [|apply IH].
    cbn. do 1 f_equal. symmetry. apply (repeat_spec n). apply nth_In. now rewrite repeat_length.
  - rewrite repeat_length in *. exists h'. auto.
Qed.
Lemma all_empty h m a : (forall b, In b (seq a m) -> arr h b []) -> Forall2 (arr h) (seq a m) (repeat [] m).
Proof.
  revert a. induction m as [|m IH]; intros a H; cbn [seq repeat]; constructor; [apply H; now left|]. apply IH. intros b Hb. apply H. now right.
Qed.
Lemma copy_new n bs ls h : Forall2 (arr h) bs ls -> Forall (fun l => length l = n) ls ->
  exists h', copy_cells V n (map At (seq (length h) (length ls))) (map At bs) (h ++ repeat (Some (repeat None n)) (length ls)) = HOk h' /\
  to h h' [] (seq (length h) (length ls)) /\ Forall2 (arr h') (seq (length h) (length ls)) ls.
Proof.
  intros F L. destruct n as [|n].
  - assert (ls = repeat [] (length ls)) as Els.
    { clear F. induction L as [|l ls Hl L IH]; [reflexivity|]. destruct l; [|discriminate]. cbn. now f_equal. }
    exists (h ++ repeat (Some (repeat None 0)) (length ls)). split; [reflexivity|]. split; [apply alloc_all_to|].
    assert (forall b, In b (seq (length h) (length ls)) -> arr (h ++ repeat (Some (repeat None 0)) (length ls)) b []) as H by (intros b Hb; unfold arr; rewrite alloc_all_nth; auto).
    rewrite Els at 3. exact (all_empty _ _ _ H).
  - destruct ls as [|l0 ls0] eqn:Els.
    + inversion F; subst. exists h. cbn [length seq map repeat]. rewrite app_nil_r. split; [|split; [apply to_refl|constructor]].
      unfold copy_cells. cbn [combine hfold]. generalize (seq 0 (S n)). intros l. induction l; auto.
    + assert (exists d : V, True) as (d & _) by (inversion L as [|? ? H0 _]; destruct l0 as [|d l0]; [discriminate|exists d; auto]). rewrite <- Els in *. clear Els l0 ls0.
      apply (new_filled (S n) ls d _ _ (fun ii h tf => hbind (read V h (snd tf) ii) (fun v => write V h (fst tf) ii v)) h L).
      intros k h' Hk Fr. assert (Forall2 (arr h') bs ls) as F'.
      { clear L. induction F as [|b l bs ls E F IH]; constructor; auto. unfold arr in *. rewrite Fr; auto. apply nth_error_Some. congruence. }
      clear F Fr. generalize (length h). induction F' as [|b l bs ls E F IH]; intros a; cbn [length seq map combine]; constructor.
      * cbn [fst snd]. inversion L; subst. rewrite (read_arr h' b l k d E) by lia. reflexivity.
      * apply IH. now inversion L.
Qed.
End Heap.
