(** Proofs about the memory of neighbour lists: vectors. *)
From Coq Require Import Permutation.
From Verif Require Import NestModel NestSpec NestProofs LifeModel LifeSpec LifeProofs LifeInv LifeMake LifeEnlarge LifeSteps OwnModel OwnSep OwnParts.
Local Open Scope nat_scope.
Local Open Scope list_scope.

Lemma nth_error_firstn' {A} (l : list A) n i : i < n -> nth_error (firstn n l) i = nth_error l i.
Proof. revert n i. induction l as [|x l IH]; intros [|n] [|i] H; cbn; try lia; auto. apply IH. lia. Qed.
Lemma firstn_snoc {A} (l : list A) i x : nth_error l i = Some x -> firstn (Datatypes.S i) l = firstn i l ++ [x].
Proof. revert i. induction l as [|y l IH]; intros [|i] H; try discriminate; cbn in H; [injection H as ->; reflexivity|]. cbn [firstn app]. f_equal. now apply IH. Qed.

Lemma vec_new_spec n : spec (fun h => HOk (vec_new n h)) [] (fun _ => True) (fun b => [jag (Some b) [] n]).
Proof.
  apply spec_nil. intros h. exists (length h), (h ++ [Some (repeat None n)]), [length h]. split; [reflexivity|]. split; [exact I|]. split.
  - apply (fresh_changes h _ 1); [rewrite app_length; reflexivity|]. intros x Hx. now apply nth_error_app1.
  - apply one_sep; [|repeat constructor; easy]. exists (length h), []. repeat split; [repeat constructor; easy| |constructor].
    rewrite nth_error_app2 by lia. now rewrite Nat.sub_diag.
Qed.

Lemma nth_ptrs qs i q k : nth_error qs i = Some q -> nth_error (ptrs qs ++ repeat None k) i = Some (Some (Z.of_nat q)).
Proof.
  intros H. rewrite nth_error_app1 by (unfold ptrs; rewrite map_length; apply nth_error_Some; congruence). unfold ptrs. rewrite nth_error_map, H. reflexivity.
Qed.
Lemma replace_ptrs qs i q k : i < length qs -> replace (ptrs qs ++ repeat None k) i (Some (Z.of_nat q)) = ptrs (replace qs i q) ++ repeat None k.
Proof. revert i. induction qs as [|x qs IH]; intros [|i] H; cbn in *; try lia; [reflexivity|]. f_equal. apply IH. lia. Qed.
Lemma replace_next qs k q : replace (ptrs qs ++ repeat None (Datatypes.S k)) (length qs) (Some (Z.of_nat q)) = ptrs (qs ++ [q]) ++ repeat None k.
Proof. apply replace_repeat. Qed.

(** A vector gets its first value. *)
Lemma vec_put_next b rows k row i : i = length rows -> act (fun h => vec_put h b i row) [jag (Some b) rows (Datatypes.S k)] [jag (Some b) (rows ++ [row]) k].
Proof.
  intros ->. apply act_one; [apply jag_stable|]. intros h own J. pose proof (jag_stable _ _ _ _ _ J) as (Al & _).
  destruct J as (b' & qs & Eb & -> & N & E & F). injection Eb as <-. pose proof (Forall2_len _ _ _ F) as L.
  assert (forall x, In x (b :: qs) -> x < length h) as Lt by (intros x Hx; apply alive_lt; auto). pose proof (Lt b (or_introl eq_refl)) as Lb.
  unfold vec_put, vec_cell, block_of. rewrite E. cbn [hbind]. rewrite <- L, nth_error_app2 by (unfold ptrs; rewrite map_length; lia).
  replace (length qs - length (ptrs qs)) with 0 by (unfold ptrs; rewrite map_length; lia). cbn [repeat nth_error hbind].
  assert (nth_error (h ++ [Some (map Some row)]) b = Some (Some (ptrs qs ++ repeat None (Datatypes.S k)))) as E1 by (rewrite nth_error_app1; auto).
  rewrite (store_ok _ _ _ _ _ E1) by (unfold ptrs; rewrite app_length, map_length; cbn; lia). rewrite replace_next.
  set (h' := replace _ _ _).
  assert (length h' = length h + 1) as Lh by (unfold h'; rewrite replace_length, app_length; reflexivity).
  assert (forall x, x < length h -> x <> b -> nth_error h' x = nth_error h x) as Ag.
  { intros x Hx Hb. unfold h'. rewrite nth_replace_other by auto. now rewrite nth_error_app1. }
  exists h', (b :: qs ++ [length h]). split; [reflexivity|]. split.
  - split; [lia|]. split; [|split; [|split]].
    + intros x Hx Hn. apply Ag; auto. intros ->. apply Hn. now left.
    + intros x Hx Hn. destruct Hn. destruct Hx as [->|Hx]; [now left|]. right. apply in_or_app. now left.
    + intros x Hx Hn. destruct Hn. right. apply in_or_app. right. left. lia.
    + intros x [->|Hx]; [left; now left|]. apply in_app_or in Hx. destruct Hx as [Hx|[<-|[]]]; [left; now right|right; lia].
  - assert (NoDup (b :: qs ++ [length h])) as N'.
    { change (b :: qs ++ [length h]) with ((b :: qs) ++ [length h]). apply NoDup_app_disjoint; [exact N|repeat constructor; easy|].
      intros x Hx [<-|[]]. specialize (Lt _ Hx). lia. }
    apply one_sep; [|exact N']. exists b, (qs ++ [length h]). repeat split; auto.
    + unfold h'. apply nth_replace_same. rewrite app_length. lia.
    + apply Forall2_app.
      * eapply Forall2_impl_in; [exact F|]. intros x y Hx Hy. cbn beta in *. rewrite Ag; [exact Hy|apply Lt; now right|]. intros ->. now inversion N.
      * constructor; [|constructor]. unfold h'. rewrite nth_replace_other by lia. rewrite nth_error_app2 by lia. now rewrite Nat.sub_diag.
Qed.

Lemma replace_in {A} (l : list A) i x y : In y (replace l i x) -> y = x \/ (exists j, j <> i /\ nth_error l j = Some y).
Proof.
  revert i. induction l as [|z l IH]; intros [|i]; cbn; [easy|easy| |].
  - intros [->|H]; [now left|]. apply In_nth_error in H. destruct H as (j & Hj). right. exists (Datatypes.S j). split; [lia|exact Hj].
  - intros [->|H]; [right; exists 0; split; [lia|reflexivity]|]. destruct (IH _ H) as [->|(j & Hj & Ej)]; [now left|]. right. exists (Datatypes.S j). split; [lia|exact Ej].
Qed.
Lemma replace_NoDup {A} (l : list A) i x : NoDup l -> ~ In x l -> NoDup (replace l i x).
Proof.
  revert i. induction l as [|z l IH]; intros [|i] N Hx; cbn; auto; inversion N as [|? ? Hz N']; subst.
  - constructor; auto. intros H. apply Hx. now right.
  - constructor; [|apply IH; auto; intros H; apply Hx; now right]. intros H. destruct (replace_in _ _ _ _ H) as [->|(j & _ & Hj)]; [apply Hx; now left|].
    apply Hz. eapply nth_error_In; eauto.
Qed.
Lemma Forall2_replace {A B} (P Q : A -> B -> Prop) l l' i x y : Forall2 P l l' -> (forall j a b, j <> i -> nth_error l j = Some a -> P a b -> Q a b) -> Q x y ->
  Forall2 Q (replace l i x) (replace l' i y).
Proof.
  intros F. revert i. induction F as [|a b l l' Hp F IH]; intros [|i] H Hq; cbn; constructor; auto.
  - eapply Forall2_impl_in; [exact F|]. intros u w Hu. apply In_nth_error in Hu. destruct Hu as (j & Hj). apply (H (Datatypes.S j)); [lia|exact Hj].
  - apply (H 0 a b); auto.
  - apply IH; [|exact Hq]. intros j u w Hj. apply (H (Datatypes.S j)). lia.
Qed.
(** A vector gets another value. *)
Lemma vec_put_again b rows row i : i < length rows -> act (fun h => vec_put h b i row) [jag (Some b) rows 0] [jag (Some b) (replace rows i row) 0].
Proof.
  intros Hi. apply act_one; [apply jag_stable|]. intros h own J. pose proof (jag_stable _ _ _ _ _ J) as (Al & _).
  destruct J as (b' & qs & Eb & -> & N & E & F). injection Eb as <-. pose proof (Forall2_len _ _ _ F) as L.
  assert (forall x, In x (b :: qs) -> x < length h) as Lt by (intros x Hx; apply alive_lt; auto). pose proof (Lt b (or_introl eq_refl)) as Lb.
  assert (exists q, nth_error qs i = Some q) as (q & Eq) by (destruct (nth_error qs i) eqn:X; [eauto|apply nth_error_None in X; lia]).
  assert (In q qs) as Hq by (eapply nth_error_In; eauto). assert (b <> q) as Hbq by (intros ->; now inversion N). pose proof (Lt q (or_intror Hq)) as Lq.
  unfold vec_put, vec_cell, block_of. rewrite E. cbn [hbind]. rewrite (nth_ptrs _ _ _ _ Eq). cbn [hbind]. rewrite Nat2Z.id.
  rewrite hfree_ok by (apply Al; now right). cbn [hbind]. rewrite !replace_length.
  set (h1 := replace h q None).
  assert (nth_error (h1 ++ [Some (map Some row)]) b = Some (Some (ptrs qs ++ repeat None 0))) as E1.
  { rewrite nth_error_app1 by (unfold h1; rewrite replace_length; lia). unfold h1. rewrite nth_replace_other by congruence. exact E. }
  rewrite (store_ok _ _ _ _ _ E1) by (unfold ptrs; rewrite app_length, map_length; lia). rewrite replace_ptrs by lia.
  set (h' := replace _ _ _).
  assert (length h' = length h + 1) as Lh by (unfold h', h1; rewrite replace_length, app_length, replace_length; reflexivity).
  assert (forall x, x < length h -> x <> b -> x <> q -> nth_error h' x = nth_error h x) as Ag.
  { intros x Hx Hb Hxq. unfold h'. rewrite nth_replace_other by auto. rewrite nth_error_app1 by (unfold h1; rewrite replace_length; lia). unfold h1. now rewrite nth_replace_other by auto. }
  assert (nth_error h' q = Some None) as Fq.
  { unfold h'. rewrite nth_replace_other by auto. rewrite nth_error_app1 by (unfold h1; rewrite replace_length; lia). unfold h1. now apply nth_replace_same. }
  assert (NoDup qs) as Nq by (now inversion N).
  assert (forall x, In x (replace qs i (length h)) -> x = length h \/ (In x qs /\ x <> q)) as Hin.
  { intros x Hx. destruct (replace_in _ _ _ _ Hx) as [->|(j & Hj & Ej)]; [now left|right]. split; [eapply nth_error_In; eauto|]. intros ->.
    apply Hj. assert (j < length qs) as Hjl by (apply nth_error_Some; congruence). apply (proj1 (NoDup_nth_error qs) Nq j i Hjl). congruence. }
  exists h', (b :: replace qs i (length h)). split; [reflexivity|]. split.
  - split; [lia|]. split; [|split; [|split]].
    + intros x Hx Hn. apply Ag; auto; intros ->; apply Hn; [now left|now right].
    + intros x Hx Hn. destruct Hx as [->|Hx]; [destruct Hn; now left|]. destruct (Nat.eq_dec x q) as [->|Hxq]; [exact Fq|]. destruct Hn. right.
      apply In_nth_error in Hx. destruct Hx as (j & Hj). apply (nth_error_In _ j). rewrite nth_replace_other; [exact Hj|]. intros ->. congruence.
    + intros x Hx Hn. destruct Hn. right. assert (x = length h) as -> by lia. apply (nth_error_In _ i). apply nth_replace_same. lia.
    + intros x [->|Hx]; [left; now left|]. destruct (Hin x Hx) as [->|[H _]]; [right; lia|left; now right].
  - assert (NoDup (b :: replace qs i (length h))) as N'.
    { constructor; [intros H; destruct (Hin b H) as [->|[H' _]]; [lia|now inversion N]|]. apply replace_NoDup; auto. intros H. specialize (Lt _ (or_intror H)). lia. }
    apply one_sep; [|exact N']. exists b, (replace qs i (length h)). repeat split; auto.
    + unfold h'. apply nth_replace_same. rewrite app_length. unfold h1. rewrite replace_length. lia.
    + eapply Forall2_replace; [exact F| |].
      * intros j x y Hj Ej Hy. cbn beta in *. rewrite Ag; [exact Hy|apply Lt; right; eapply nth_error_In; eauto| |].
        -- intros ->. inversion N as [|? ? Hb _]; subst. apply Hb. eapply nth_error_In; eauto.
        -- intros ->. apply Hj. assert (j < length qs) as Hjl by (apply nth_error_Some; congruence). apply (proj1 (NoDup_nth_error qs) Nq j i Hjl). congruence.
      * unfold h'. rewrite nth_replace_other by lia. rewrite nth_error_app2 by (unfold h1; rewrite replace_length; lia). unfold h1. rewrite replace_length.
        now rewrite Nat.sub_diag.
Qed.

Lemma numbers_of_all l : numbers_of (map Some l) = HOk l.
Proof. induction l as [|z l IH]; [reflexivity|]. cbn [map numbers_of]. now rewrite IH. Qed.
Lemma vec_get_reads b rows k i row : nth_error rows i = Some row -> reads (fun h => vec_get h b i) [jag (Some b) rows k] row.
Proof.
  intros Hr. apply reads_one. intros h own (b' & qs & Eb & -> & N & E & F). injection Eb as <-. pose proof (Forall2_len _ _ _ F) as L.
  assert (exists q, nth_error qs i = Some q) as (q & Eq).
  { destruct (nth_error qs i) eqn:X; [eauto|]. apply nth_error_None in X. assert (i < length rows) by (apply nth_error_Some; congruence). lia. }
  unfold vec_get, vec_cell, block_of. rewrite E. cbn [hbind]. rewrite (nth_ptrs _ _ _ _ Eq). cbn [hbind]. rewrite Nat2Z.id.
  assert (nth_error h q = Some (Some (map Some row))) as ->.
  { clear -F Hr Eq. revert i Hr Eq. induction F as [|a c l l' Hp F IH]; intros [|i] Hr Eq; cbn in *; try discriminate; [congruence|]. eapply IH; eauto. }
  cbn [hbind]. apply numbers_of_all.
Qed.

Lemma vec_delete_act n p rows : n = length rows -> act (vec_delete n p) [jag p rows 0] [].
Proof.
  intros ->. apply act_one; [apply jag_stable|]. intros h own J. pose proof (jag_stable _ _ _ _ _ J) as (Al & _).
  destruct J as (b & qs & -> & -> & N & E & F). pose proof (Forall2_len _ _ _ F) as L. unfold vec_delete. cbn [deref].
  assert (~ In b qs) as Nb by (now inversion N). assert (NoDup qs) as Nq by (now inversion N).
  assert (forall x, In x (b :: qs) -> x < length h) as Lt by (intros x Hx; apply alive_lt; auto).
  destruct (hfold_inv (fun h i => hbind (vec_cell h b i) (fun z => match z with None => HOk h | Some q => hfree h (Some (Z.to_nat q)) end))
    (fun i s => length s = length h /\ agree (fun x => ~ In x (firstn i qs)) h s /\ (forall x, In x (firstn i qs) -> nth_error s x = Some None)) (length rows) h)
    as (s & -> & Ls & As & Fs).
  - split; [reflexivity|]. split; [intros x _; reflexivity|easy].
  - intros i s Hi (Ls & As & Fs). assert (exists q, nth_error qs i = Some q) as (q & Eq) by (destruct (nth_error qs i) eqn:X; [eauto|apply nth_error_None in X; lia]).
    assert (In q qs) as Hq by (eapply nth_error_In; eauto).
    assert (~ In q (firstn i qs)) as Hnq.
    { intros H. apply In_nth_error in H. destruct H as (j & Hj). assert (j < length (firstn i qs)) as Hjl by (apply nth_error_Some; congruence). rewrite firstn_length in Hjl.
      rewrite nth_error_firstn' in Hj by lia. assert (j < length qs) as Hl by lia. pose proof (proj1 (NoDup_nth_error qs) Nq j i Hl). assert (j = i) by (apply H; congruence). lia. }
    assert (~ In b (firstn i qs)) as Hnb by (intros H; apply Nb; rewrite <- (firstn_skipn i qs); apply in_or_app; now left).
    unfold vec_cell, block_of. rewrite (As b Hnb), E. cbn [hbind]. rewrite (nth_ptrs _ _ _ _ Eq). cbn [hbind]. rewrite Nat2Z.id.
    assert (alive s q) as Aq by (destruct (Al q (or_intror Hq)) as [c Hc]; exists c; now rewrite (As q Hnq)).
    rewrite hfree_ok by exact Aq. eexists. split; [reflexivity|]. rewrite replace_length.
    assert (firstn (Datatypes.S i) qs = firstn i qs ++ [q]) as Ef by (apply firstn_snoc; exact Eq). rewrite Ef. split; [exact Ls|]. split.
    + intros x Hx. rewrite nth_replace_other; [apply As; intros H; apply Hx; apply in_or_app; now left|]. intros ->. apply Hx. apply in_or_app. right. now left.
    + intros x Hx. destruct (Nat.eq_dec q x) as [<-|Hne]; [apply nth_replace_same; rewrite Ls; apply Lt; now right|]. rewrite nth_replace_other by auto. apply Fs.
      apply in_app_or in Hx. destruct Hx as [Hx|[Hx|[]]]; [exact Hx|congruence].
  - cbn [hbind]. rewrite <- L, firstn_all in As, Fs. assert (nth_error s b = nth_error h b) as Esb by (apply As; exact Nb).
    rewrite hfree_ok by (rewrite E in Esb; eexists; eauto).
    exists (replace s b None), []. split; [reflexivity|]. split; [|apply nil_sep]. apply freed; [now rewrite replace_length| |].
    + intros x Hx. rewrite nth_replace_other by (intros ->; apply Hx; now left). apply As. intros H. apply Hx. now right.
    + intros x Hx. destruct (Nat.eq_dec b x) as [<-|Hne]; [apply nth_replace_same; rewrite Ls; apply Lt; now left|]. rewrite nth_replace_other by auto. apply Fs.
      destruct Hx; [congruence|auto].
Qed.

Lemma vec_copy_spec n p rows : n = length rows -> spec (vec_copy n (fun _ => p)) [jag p rows 0] (fun _ => True) (fun p' => [jag p' rows 0; jag p rows 0]).
Proof.
  intros -> h own S0. unfold vec_copy. pose proof (now_start _ _ _ S0) as N0.
  destruct (now_spec _ [] _ _ [jag p rows 0] _ _ _ _ ltac:(stab) ltac:(stab) (vec_new_spec (length rows)) N0 (Permutation_refl _)) as (b & h1 & E1 & _ & N1).
  assert (vec_new (length rows) h = (b, h1)) as -> by congruence. cbn [app] in N1.
  assert (exists q, p = Some q) as (q & ->) by (destruct (sep_one _ _ _ S0) as (o & (q & _ & -> & _) & _); eauto). cbn [deref].
  destruct (hfold_inv (fun h i => hbind (vec_get h q i) (fun row => vec_put h b i row))
    (fun i s => now h own [jag (Some b) (firstn i rows) (length rows - i); jag (Some q) rows 0] s) (length rows) h1) as (s & -> & Ns).
  - now rewrite Nat.sub_0_r.
  - intros i s Hi Ns. assert (exists row, nth_error rows i = Some row) as (row & Er) by (destruct (nth_error rows i) eqn:X; [eauto|apply nth_error_None in X; lia]).
    rewrite (now_reads _ [jag (Some q) rows 0] [jag (Some b) (firstn i rows) (length rows - i)] _ _ _ _ _ (vec_get_reads q rows 0 i row Er) Ns) by apply perm_swap. cbn [hbind].
    replace (length rows - i) with (Datatypes.S (length rows - Datatypes.S i)) in Ns by lia.
    assert (i = length (firstn i rows)) as Hl by (rewrite firstn_length; lia).
    destruct (now_act _ [jag (Some b) (firstn i rows) (Datatypes.S (length rows - Datatypes.S i))] _ [jag (Some q) rows 0] _ _ _ _ ltac:(stab) ltac:(stab)
      (vec_put_next b (firstn i rows) (length rows - Datatypes.S i) row i Hl) Ns (Permutation_refl _)) as (s' & -> & Ns'). cbn [app] in Ns'. exists s'. split; [reflexivity|]. rewrite (firstn_snoc rows i row Er). exact Ns'.
  - cbn [hbind]. rewrite firstn_all, Nat.sub_diag in Ns. destruct Ns as (new & C & S1). exists (Some b), s, new. auto.
Qed.
