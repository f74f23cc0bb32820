(** Proofs about reading files several times. *)
From Coq Require Import ZArith Lia Sorted.
From Verif Require Import Text MovementModel AtomConfigModel FreshModel FreshSpec.
Open Scope nat_scope.
Open Scope list_scope.

(** The lines linecache gives for a path, now. *)
Definition eff (w : world) (p : string) : list string :=
  match held w p with Some ls => ls | None => match disk w p with Some c => file_lines c | None => [] end end.

(** The answer depends on the path's file and held lines only. *)
Definition local {A} (p : string) (m : reader A) : Prop :=
  forall w w', disk w p = disk w' p -> eff w p = eff w' p -> snd (m w) = snd (m w').
(** Nothing changes on the disk or in what linecache gives. *)
Definition quiet {A} (p : string) (m : reader A) : Prop := forall w,
  disk (fst (m w)) = disk w /\ (forall r, eff (fst (m w)) r = eff w r) /\ (forall r, r <> p -> held (fst (m w)) r = held w r) /\
  (held w p <> None -> held (fst (m w)) p = held w p) /\ (disk w p = None -> held (fst (m w)) p = held w p).
Definition good {A} (p : string) (m : reader A) : Prop := local p m /\ quiet p m.

Lemma good_of_result : forall A p (x : result A), good p (of_result x).
Proof. intros A p x. split; [intros w w' _ _; reflexivity|]. intros w. repeat split; auto. Qed.

Lemma good_done : forall A p (x : A), good p (done x).
Proof. intros. apply good_of_result. Qed.

Lemma good_andthen : forall A B p (m : reader A) (f : A -> reader B),
  good p m -> (forall a, good p (f a)) -> good p (andthen m f).
Proof.
  intros A B p m f [Hl Hq] Hf. split.
  - intros w w' Hd He. unfold andthen. pose proof (Hl w w' Hd He) as H0.
    destruct (Hq w) as (D1 & E1 & _). destruct (Hq w') as (D2 & E2 & _).
    destruct (m w) as [w1 r1]. destruct (m w') as [w2 r2]. cbn [fst snd] in *. subst r2.
    destruct r1 as [a|e]; [|reflexivity]. apply (proj1 (Hf a)); [congruence|].
    rewrite E1, E2. assumption.
  - intros w. unfold andthen. destruct (Hq w) as (D1 & E1 & H1 & K1 & N1). destruct (m w) as [w1 r1]. cbn [fst snd] in *.
    destruct r1 as [a|e]; [|repeat split; assumption].
    destruct (proj2 (Hf a) w1) as (D2 & E2 & H2 & K2 & N2). repeat split.
    + congruence.
    + intros r. rewrite E2, E1. reflexivity.
    + intros r Hr. rewrite H2, H1 by assumption. reflexivity.
    + intros Hk. specialize (K1 Hk). rewrite K2; [assumption|congruence].
    + intros Hn. specialize (N1 Hn). rewrite N2; [assumption|congruence].
Qed.

Lemma set_at_same : forall A (f : string -> A) p a, set_at f p a p = a.
Proof. intros. unfold set_at. rewrite String.eqb_refl. reflexivity. Qed.
Lemma set_at_other : forall A (f : string -> A) p a q, q <> p -> set_at f p a q = f q.
Proof. intros. unfold set_at. destruct (String.eqb_spec q p); [contradiction|reflexivity]. Qed.

Lemma cached_snd : forall p w, snd (cached_lines p w) = Ok (eff w p).
Proof. intros p w. unfold cached_lines, eff. destruct (held w p); [reflexivity|]. destruct (disk w p); reflexivity. Qed.

Lemma good_cached : forall p, good p (cached_lines p).
Proof.
  intros p. split.
  - intros w w' _ He. rewrite !cached_snd, He. reflexivity.
  - intros w. unfold cached_lines. destruct (held w p) as [ls|] eqn:Hh; [repeat split; auto|].
    destruct (disk w p) as [c|] eqn:Hd; [|repeat split; auto].
    cbn [fst]. repeat split; cbn [disk held].
    + intros r. unfold eff. cbn [disk held]. destruct (String.string_dec r p) as [->|Hr].
      * rewrite set_at_same, Hh, Hd. reflexivity.
      * rewrite set_at_other by assumption. reflexivity.
    + intros r Hr. apply set_at_other. assumption.
    + intros H0. exfalso. apply H0. reflexivity.
    + intros H0. discriminate H0.
Qed.

Lemma good_opened : forall p, good p (opened p).
Proof.
  intros p. split.
  - intros w w' Hd _. unfold opened. cbn. rewrite Hd. reflexivity.
  - intros w. repeat split; auto.
Qed.

Lemma good_tokens : forall p i, good p (cached_tokens p i).
Proof. intros. apply good_andthen; [apply good_cached|]. intros. apply good_done. Qed.

Section Readers.
Variable F : Type.
Variable int_of : string -> result Z.
Variable pfloat : string -> result F.
Variable round3 : F -> F.
Notation ask := (ask F int_of pfloat round3).
Notation history := (history F int_of pfloat round3).
Notation answer_after := (answer_after F int_of pfloat round3).

Lemma good_rep : forall aim p, good p (rep_token aim p).
Proof.
  intros. repeat (apply good_andthen; [first [apply good_opened | apply good_tokens | apply good_of_result]|intros]).
  apply good_of_result.
Qed.

Lemma good_ask : forall q p, good p (ask q p).
Proof.
  intros q p; destruct q; cbn [FreshModel.ask]; unfold lift; (apply good_andthen; [|intros; apply good_done]);
  try apply good_rep;
  repeat (apply good_andthen; [first [apply good_opened | apply good_tokens | apply good_cached | apply good_rep | apply good_of_result]|intros]);
  try apply good_of_result; apply good_done.
Qed.

(** The files. *)
Lemma files_history : forall es w r, disk (history w es) r = files_after (disk w) es r.
Proof.
  induction es as [|e es IH]; intros w r; [reflexivity|].
  change (history w (e :: es)) with (history (happen F int_of pfloat round3 w e) es). rewrite IH.
  destruct e as [p c|p|q p]; cbn [happen files_after disk].
  - reflexivity.
  - reflexivity.
  - rewrite (proj1 (proj2 (good_ask q p) w)). reflexivity.
Qed.

Lemma history_app : forall a b w, history w (a ++ b) = history (history w a) b.
Proof. intros. unfold FreshModel.history. apply fold_left_app. Qed.

Lemma files_app : forall a b d, files_after d (a ++ b) = files_after (files_after d a) b.
Proof. induction a as [|e a IH]; intros b d; [reflexivity|]. destruct e; cbn; apply IH. Qed.

(** Held lines stay held. *)
Lemma happen_held : forall e w p, held w p <> None -> held (happen F int_of pfloat round3 w e) p = held w p.
Proof.
  intros [r c|r|q r] w p H0; cbn [happen]; try reflexivity.
  destruct (proj2 (good_ask q r) w) as (_ & _ & Ho & Hs & _).
  destruct (String.string_dec p r) as [->|Hr]; [apply Hs; assumption|apply Ho; assumption].
Qed.

Lemma history_held : forall es w p, held w p <> None -> held (history w es) p = held w p.
Proof.
  induction es as [|e es IH]; intros w p H0; [reflexivity|].
  change (history w (e :: es)) with (history (happen F int_of pfloat round3 w e) es).
  rewrite IH; rewrite happen_held; auto.
Qed.

(** Questions about the body hold nothing. *)
Lemma body_holds_nothing : forall q p w, about_body q -> fst (ask q p w) = w.
Proof.
  intros q p w Hb. destruct Hb as [->|[->|[->| ->]]]; cbn [FreshModel.ask]; unfold lift, kpt_frac, kpt_weights, kpt_hsp, kpt_index, andthen, opened, of_result, done.
  - destruct (disk w p) as [c|]; [destruct (frac_rows F pfloat c)|]; reflexivity.
  - destruct (disk w p) as [c|]; [destruct (weights F pfloat c)|]; reflexivity.
  - destruct (disk w p) as [c|]; [destruct (hsp_scan F pfloat (body c))|]; reflexivity.
  - destruct (disk w p) as [c|]; reflexivity.
Qed.

Lemma not_looked_prefix : forall d a b p, ~ looked_at d (a ++ b) p -> ~ looked_at d a p.
Proof.
  intros d a b p H0 (x & q & y & E & Hq & Hf). apply H0. exists x, q, (y ++ b). subst a. rewrite <- app_assoc. auto.
Qed.

Lemma about_body_dec : forall q, about_body q \/ ~ about_body q.
Proof.
  unfold about_body. destruct q; (left; tauto) || (right; intros [H0|[H0|[H0|H0]]]; discriminate).
Qed.

Lemma not_looked_held : forall d a p, ~ looked_at d a p -> held (history (new_process d) a) p = None.
Proof.
  intros d a p. induction a as [|e a IH] using rev_ind; intros Hn; [reflexivity|].
  rewrite history_app. cbn [FreshModel.history fold_left].
  specialize (IH (not_looked_prefix _ _ _ _ Hn)).
  change (fold_left (happen F int_of pfloat round3) a (new_process d)) with (history (new_process d) a).
  destruct e as [r c|r|q r]; cbn [happen held]; auto.
  destruct (proj2 (good_ask q r) (history (new_process d) a)) as (_ & _ & Ho & _ & Hs).
  destruct (String.string_dec p r) as [->|Hr]; [|rewrite Ho; assumption].
  destruct (about_body_dec q) as [Hb|Hb]; [rewrite body_holds_nothing by assumption; assumption|].
  rewrite Hs; [assumption|].
  rewrite files_history. cbn [disk new_process].
  destruct (files_after d a r) as [c|] eqn:Hf; [|reflexivity].
  exfalso. apply Hn. exists a, q, []. split; [reflexivity|]. split; [assumption|]. rewrite Hf. discriminate.
Qed.

(** What linecache gives for an unchanged file. *)
Lemma unchanged_eff : forall b w p, (forall e, In e b -> ~ changes p e) ->
  disk (history w b) p = disk w p /\ eff (history w b) p = eff w p.
Proof.
  induction b as [|e b IH]; intros w p H0; [split; reflexivity|].
  change (history w (e :: b)) with (history (happen F int_of pfloat round3 w e) b).
  destruct (IH (happen F int_of pfloat round3 w e) p (fun x Hx => H0 x (or_intror Hx))) as [E1 E2].
  rewrite E1, E2. pose proof (H0 e (or_introl eq_refl)) as Hc.
  destruct e as [r c|r|q r]; cbn [happen changes] in *.
  - unfold eff. cbn [disk held]. rewrite set_at_other by congruence. split; reflexivity.
  - unfold eff. cbn [disk held]. rewrite set_at_other by congruence. split; reflexivity.
  - destruct (proj2 (good_ask q r) w) as (D & E & _). rewrite D, E. split; reflexivity.
Qed.

Lemma unchanged : forall d a b q p, ~ looked_at d a p -> (forall e, In e b -> ~ changes p e) ->
  answer_after (new_process d) (a ++ b) q p = snd (ask q p (new_process (files_after d (a ++ b)))).
Proof.
  intros d a b q p Ha Hb. unfold FreshModel.answer_after. apply (proj1 (good_ask q p)).
  - rewrite files_history. reflexivity.
  - rewrite history_app. destruct (unchanged_eff b (history (new_process d) a) p Hb) as [E1 E2]. rewrite E2.
    unfold eff at 1. rewrite (not_looked_held d a p Ha). rewrite <- E1.
    unfold eff. cbn [held disk new_process]. rewrite <- history_app, files_history. reflexivity.
Qed.

Lemma body_current : forall d es q p, about_body q ->
  answer_after (new_process d) es q p = snd (ask q p (new_process (files_after d es))).
Proof.
  intros d es q p Hb. unfold FreshModel.answer_after.
  assert (Hd : disk (history (new_process d) es) p = disk (new_process (files_after d es)) p) by (rewrite files_history; reflexivity).
  destruct Hb as [->|[->|[->| ->]]]; cbn [FreshModel.ask]; unfold lift, kpt_frac, kpt_weights, kpt_hsp, kpt_index, andthen, opened, of_result, done; rewrite Hd.
  - destruct (disk (new_process (files_after d es)) p) as [c|]; [destruct (frac_rows F pfloat c)|]; reflexivity.
  - destruct (disk (new_process (files_after d es)) p) as [c|]; [destruct (weights F pfloat c)|]; reflexivity.
  - destruct (disk (new_process (files_after d es)) p) as [c|]; [destruct (hsp_scan F pfloat (body c))|]; reflexivity.
  - destruct (disk (new_process (files_after d es)) p) as [c|]; reflexivity.
Qed.

(** Questions about the header look at held lines only. *)
Definition held_only {A} (p : string) (m : reader A) : Prop := forall w w', eff w p = eff w' p -> snd (m w) = snd (m w').

Lemma ho_andthen : forall A B p (m : reader A) (f : A -> reader B),
  held_only p m -> quiet p m -> (forall a, held_only p (f a)) -> held_only p (andthen m f).
Proof.
  intros A B p m f Hl Hq Hf w w' He. unfold andthen. pose proof (Hl w w' He) as H0.
  destruct (Hq w) as (_ & E1 & _). destruct (Hq w') as (_ & E2 & _).
  destruct (m w) as [w1 r1]. destruct (m w') as [w2 r2]. cbn [fst snd] in *. subst r2.
  destruct r1 as [a|e]; [|reflexivity]. apply Hf. rewrite E1, E2. assumption.
Qed.
Lemma ho_result : forall A p (x : result A), held_only p (of_result x).
Proof. intros A p x w w' _. reflexivity. Qed.
Lemma ho_cached : forall p, held_only p (cached_lines p).
Proof. intros p w w' He. rewrite !cached_snd, He. reflexivity. Qed.
Lemma ho_tokens : forall p i, held_only p (cached_tokens p i).
Proof.
  intros p i. apply ho_andthen; [apply ho_cached|apply good_cached|].
  intros a. apply (ho_result _ p (Ok (split_ws (getline a i)))).
Qed.

Lemma ho_header : forall q p, about_header q -> held_only p (ask q p).
Proof.
  intros q p H0. destruct H0 as [->|[->| ->]]; cbn [FreshModel.ask]; unfold lift.
  - apply ho_andthen.
    + apply ho_andthen; [apply ho_tokens|apply good_tokens|]. intros a. apply ho_result.
    + apply good_andthen; [apply good_tokens|]. intros a. apply good_of_result.
    + intros a. apply (ho_result _ p (Ok _)).
  - apply ho_andthen.
    + apply ho_andthen; [apply ho_tokens|apply good_tokens|]. intros a.
      apply ho_andthen; [apply ho_result|apply good_of_result|]. intros i.
      apply ho_andthen; [apply ho_tokens|apply good_tokens|]. intros b. apply ho_result.
    + apply good_andthen; [apply good_tokens|]. intros a.
      apply good_andthen; [apply good_of_result|]. intros i.
      apply good_andthen; [apply good_tokens|]. intros b. apply good_of_result.
    + intros a. apply (ho_result _ p (Ok _)).
  - apply ho_andthen.
    + apply ho_andthen; [apply ho_tokens|apply good_tokens|]. intros a. apply ho_result.
    + apply good_andthen; [apply good_tokens|]. intros a. apply good_of_result.
    + intros a. apply (ho_result _ p (Ok _)).
Qed.

(** The first question about the header (or of a structure) makes linecache hold the lines. *)
Lemma andthen_held : forall A B p (m : reader A) (f : A -> reader B) w,
  held (fst (m w)) p <> None -> (forall a, quiet p (f a)) -> held (fst (andthen m f w)) p = held (fst (m w)) p.
Proof.
  intros A B p m f w H0 Hf. unfold andthen. destruct (m w) as [w1 r1]. cbn [fst] in *. destruct r1 as [a|e]; [|reflexivity].
  destruct (Hf a w1) as (_ & _ & _ & Hk & _). apply Hk. assumption.
Qed.
Lemma cached_held : forall p w c, held w p = None -> disk w p = Some c -> held (fst (cached_lines p w)) p = Some (file_lines c).
Proof. intros p w c H0 H1. unfold cached_lines. rewrite H0, H1. cbn. apply set_at_same. Qed.

Lemma first_holds : forall q p w c, about_header q \/ q = AtomConfig -> held w p = None -> disk w p = Some c ->
  held (fst (ask q p w)) p = Some (file_lines c).
Proof.
  intros q p w c Hq H0 H1. pose proof (cached_held p w c H0 H1) as Hc.
  assert (Hn : held (fst (cached_lines p w)) p <> None) by (rewrite Hc; discriminate).
  assert (Ht : forall i, held (fst (cached_tokens p i w)) p = Some (file_lines c)).
  { intros i. unfold cached_tokens. rewrite andthen_held; [assumption|assumption|]. intros a. apply good_done. }
  assert (Htn : forall i, held (fst (cached_tokens p i w)) p <> None) by (intros i; rewrite Ht; discriminate).
  destruct Hq as [[->|[->| ->]]| ->]; cbn [FreshModel.ask]; unfold lift.
  - assert (E : held (fst (get_efermi F pfloat round3 p w)) p = Some (file_lines c)).
    { unfold get_efermi. rewrite andthen_held; [apply Ht|apply Htn|]. intros a. apply good_of_result. }
    rewrite andthen_held; [assumption|rewrite E; discriminate|]. intros a. apply good_done.
  - assert (E : held (fst (kpt_construct int_of p w)) p = Some (file_lines c)).
    { unfold kpt_construct. rewrite andthen_held; [apply Ht|apply Htn|]. intros a.
      apply good_andthen; [apply good_of_result|]. intros i.
      apply good_andthen; [apply good_tokens|]. intros b. apply good_of_result. }
    rewrite andthen_held; [assumption|rewrite E; discriminate|]. intros a. apply good_done.
  - assert (E : held (fst (kpt_num int_of p w)) p = Some (file_lines c)).
    { unfold kpt_num. rewrite andthen_held; [apply Ht|apply Htn|]. intros a. apply good_of_result. }
    rewrite andthen_held; [assumption|rewrite E; discriminate|]. intros a. apply good_done.
  - assert (E : held (fst (ac_read F pfloat p w)) p = Some (file_lines c)).
    { unfold ac_read. rewrite andthen_held; [assumption|assumption|]. intros a.
      apply good_andthen; [apply good_of_result|]. intros i.
      apply good_andthen; [apply good_opened|]. intros b. apply good_of_result. }
    rewrite andthen_held; [assumption|rewrite E; discriminate|]. intros a. apply good_done.
Qed.

Lemma header_stale : forall d a b p c q0 q,
  ~ looked_at d a p -> files_after d a p = Some c -> about_header q0 \/ q0 = AtomConfig -> about_header q ->
  answer_after (new_process d) (a ++ Ask q0 p :: b) q p = snd (ask q p (new_process (fun _ => Some c))).
Proof.
  intros d a b p c q0 q Ha Hc H0 Hq. unfold FreshModel.answer_after. apply ho_header; [assumption|].
  rewrite history_app.
  change (history (history (new_process d) a) (Ask q0 p :: b)) with (history (fst (ask q0 p (history (new_process d) a))) b).
  assert (E : held (fst (ask q0 p (history (new_process d) a))) p = Some (file_lines c)).
  { apply first_holds; [assumption|apply not_looked_held; assumption|]. rewrite files_history. assumption. }
  unfold eff at 1. rewrite history_held by (rewrite E; discriminate). rewrite E. reflexivity.
Qed.

(** A file that is not there. *)
Lemma missing : forall d es q p, ~ looked_at d es p -> files_after d es p = None ->
  answer_after (new_process d) es q p =
    Err (match q with EFermi | KptObject | KptNum | AtomConfig => IndexError | _ => PlainException end).
Proof.
  intros d es q p Hn Hf. unfold FreshModel.answer_after.
  rewrite (proj1 (good_ask q p) (history (new_process d) es) (new_process (fun _ => None))).
  - destruct q; reflexivity.
  - rewrite files_history. exact Hf.
  - unfold eff. rewrite (not_looked_held d es p Hn), files_history. cbn. rewrite Hf. reflexivity.
Qed.

(** ** Tables *)

Lemma mapM_length : forall A B (f : A -> result B) l r, mapM f l = Ok r -> List.length r = List.length l.
Proof.
  induction l as [|a l IH]; intros r H0; cbn in H0; [injection H0 as <-; reflexivity|].
  destruct (f a); cbn in H0; [|discriminate]. destruct (mapM f l) as [t|]; cbn in H0; [|discriminate].
  injection H0 as <-. cbn. rewrite (IH t eq_refl). reflexivity.
Qed.

Lemma frac_mapM : forall c rows, frac_rows F pfloat c = Ok rows ->
  mapM (fun l => mapM pfloat (firstn 3 (split_ws l))) (body c) = Ok rows.
Proof.
  intros c rows H0. unfold frac_rows in H0. destruct (mapM _ (body c)) as [[|r rs]|]; cbn in H0; [exact H0| |discriminate].
  destruct (forallb _ rs); [exact H0|discriminate].
Qed.

Lemma hsp_of_rows : forall ls rows k pre,
  mapM (fun l => mapM pfloat (firstn 3 (split_ws l))) ls = Ok rows -> List.length pre = k ->
  exists h, hsp_scan F pfloat ls = Ok h /\
    Forall2 (fun ix nm => snd ix = fst nm /\ nth_error (pre ++ rows) (fst ix) = Some (snd nm)) (idx2hsp_from k ls) h.
Proof.
  induction ls as [|l ls IH]; intros rows k pre H0 Hk.
  - exists []. split; [reflexivity|constructor].
  - cbn [mapM] in H0. destruct (mapM pfloat (firstn 3 (split_ws l))) as [r|] eqn:Er; cbn [bind] in H0; [|discriminate].
    destruct (mapM _ ls) as [t|] eqn:Et; cbn [bind] in H0; [|discriminate]. injection H0 as <-.
    destruct (IH t (S k) (pre ++ [r]) eq_refl) as (h & Hh & Hf).
    { rewrite app_length. cbn. lia. }
    rewrite <- app_assoc in Hf. cbn in Hf.
    cbn [hsp_scan idx2hsp_from]. destruct (split_ws l) as [|a [|b [|z [|t0 [|name [|]]]]]]; try (exists h; split; [exact Hh|exact Hf]).
    cbn in Er. destruct (pfloat a) as [x|]; cbn in Er; [|discriminate].
    destruct (pfloat b) as [y|]; cbn in Er; [|discriminate].
    destruct (pfloat z) as [v|]; cbn in Er; [|discriminate]. injection Er as <-.
    exists ((name, [x; y; v]) :: h). rewrite Hh. split; [reflexivity|]. constructor; [|exact Hf].
    cbn. split; [reflexivity|]. rewrite nth_error_app2 by lia. replace (k - List.length pre) with 0 by lia. reflexivity.
Qed.

Lemma body_nth : forall c i l, nth_error (body c) i = Some l <-> body_line c i l.
Proof.
  intros c i l. unfold body_line, body. rewrite Nat.add_comm. destruct (file_lines c) as [|a [|b r]]; cbn.
  - destruct i; cbn; split; intros H0; discriminate H0.
  - destruct i; cbn; split; intros H0; discriminate H0.
  - tauto.
Qed.

Lemma idx_in : forall ls k i name, In (i, name) (idx2hsp_from k ls) <->
  exists l x y z t, k <= i /\ nth_error ls (i - k) = Some l /\ split_ws l = [x; y; z; t; name].
Proof.
  induction ls as [|l ls IH]; intros k i name; cbn [idx2hsp_from].
  - split; [contradiction|]. intros (l & x & y & z & t & _ & H0 & _). destruct (i - k); discriminate.
  - split.
    + intros H0.
      assert (Hd : (i = k /\ exists x y z t, split_ws l = [x; y; z; t; name]) \/ In (i, name) (idx2hsp_from (S k) ls)).
      { destruct (split_ws l) as [|a [|b [|z [|t0 [|nm [|]]]]]]; auto. destruct H0 as [H0|H0]; [|auto].
        injection H0 as -> ->. left. split; [reflexivity|]. exists a, b, z, t0. reflexivity. }
      destruct Hd as [[-> (x & y & z & t & E)]|H1].
      * exists l, x, y, z, t. rewrite Nat.sub_diag. repeat split; auto.
      * apply IH in H1. destruct H1 as (l' & x & y & z & t & Hk & Hn & E). exists l', x, y, z, t.
        split; [lia|]. split; [|exact E]. replace (i - k) with (S (i - S k)) by lia. exact Hn.
    + intros (l' & x & y & z & t & Hk & Hn & E).
      destruct (Nat.eq_dec i k) as [->|Hne].
      * rewrite Nat.sub_diag in Hn. cbn in Hn. injection Hn as <-. rewrite E. left. reflexivity.
      * assert (H1 : In (i, name) (idx2hsp_from (S k) ls)).
        { apply IH. exists l', x, y, z, t. split; [lia|]. split; [|exact E].
          replace (i - k) with (S (i - S k)) in Hn by lia. exact Hn. }
        destruct (split_ws l) as [|a [|b [|z0 [|t0 [|nm [|]]]]]]; auto. right. exact H1.
Qed.

Lemma idx_increasing : forall ls k, Sorted.StronglySorted lt (map fst (idx2hsp_from k ls)) /\ (forall i, In i (map fst (idx2hsp_from k ls)) -> k <= i).
Proof.
  induction ls as [|l ls IH]; intros k; cbn [idx2hsp_from]; [split; [constructor|intros i []]|].
  destruct (IH (S k)) as [Hs Hb].
  assert (Hw : Sorted.StronglySorted lt (map fst (idx2hsp_from (S k) ls)) /\ (forall i, In i (map fst (idx2hsp_from (S k) ls)) -> k <= i)).
  { split; [exact Hs|]. intros i Hi. apply Hb in Hi. lia. }
  destruct (split_ws l) as [|a [|b [|z [|t0 [|name [|]]]]]]; auto.
  cbn. split.
  - constructor; [exact Hs|]. apply Forall_forall. intros i Hi. apply Hb in Hi. lia.
  - intros i [<-|Hi]; [lia|]. apply Hb in Hi. lia.
Qed.

(** What the questions about the body answer for a file that is there. *)
Lemma ask_frac : forall w p rows, snd (ask KptFrac p w) = Ok (ARows F rows) ->
  exists c, disk w p = Some c /\ frac_rows F pfloat c = Ok rows.
Proof.
  intros w p rows H0. cbn in H0. unfold lift, kpt_frac, andthen, opened, of_result, done in H0.
  destruct (disk w p) as [c|]; [|discriminate]. exists c. split; [reflexivity|].
  destruct (frac_rows F pfloat c); cbn in H0; [|discriminate]. injection H0 as <-. reflexivity.
Qed.

Lemma tables_agree : forall w p rows,
  snd (ask KptFrac p w) = Ok (ARows F rows) ->
  exists c index hsp, disk w p = Some c /\
    snd (ask KptIndex p w) = Ok (AIndex F index) /\ snd (ask KptHsp p w) = Ok (AHsp F hsp) /\
    Forall2 (fun ix nm => snd ix = fst nm /\ nth_error rows (fst ix) = Some (snd nm)) index hsp /\
    Sorted.StronglySorted lt (map fst index) /\
    (forall i name, In (i, name) index <-> named c i name) /\
    (forall i, i < List.length rows <-> exists l, body_line c i l) /\
    (forall ws, snd (ask KptWeights p w) = Ok (AFloats F ws) -> List.length ws = List.length rows).
Proof.
  intros w p rows H0. destruct (ask_frac w p rows H0) as (c & Hd & Hr).
  pose proof (frac_mapM c rows Hr) as Hm.
  destruct (hsp_of_rows (body c) rows 0 [] Hm eq_refl) as (h & Hh & Hf).
  exists c, (idx2hsp_from 0 (body c)), h. split; [exact Hd|].
  split; [cbn; unfold lift, kpt_index, andthen, opened, done; rewrite Hd; reflexivity|].
  split; [cbn; unfold lift, kpt_hsp, andthen, opened, of_result, done; rewrite Hd, Hh; reflexivity|].
  split; [exact Hf|]. split; [apply (idx_increasing (body c) 0)|].
  split.
  { intros i name. rewrite idx_in. unfold named. split.
    - intros (l & x & y & z & t & _ & Hn & E). rewrite Nat.sub_0_r in Hn. exists l, x, y, z, t. split; [apply body_nth; exact Hn|exact E].
    - intros (l & x & y & z & t & Hn & E). exists l, x, y, z, t. split; [lia|]. rewrite Nat.sub_0_r. split; [apply body_nth; exact Hn|exact E]. }
  split.
  { intros i. rewrite (mapM_length _ _ _ _ _ Hm). split.
    - intros Hi. destruct (nth_error (body c) i) as [l|] eqn:E; [|apply nth_error_None in E; lia]. exists l. apply body_nth. exact E.
    - intros (l & Hl). apply body_nth in Hl. apply nth_error_Some. rewrite Hl. discriminate. }
  intros ws Hw. cbn in Hw. unfold lift, kpt_weights, andthen, opened, of_result, done in Hw. rewrite Hd in Hw.
  unfold weights in Hw. destruct (mapM _ (body c)) as [ws'|] eqn:E in Hw; cbn in Hw; [|discriminate]. injection Hw as <-.
  rewrite (mapM_length _ _ _ _ _ E), (mapM_length _ _ _ _ _ Hm). reflexivity.
Qed.

(** ** What a new process reads *)

Lemma search_first : forall aim c l, first_line_with aim c l ->
  exists i, get (search_aim c aim) 0 = Ok (S i) /\ nth_error (file_lines c) i = Some l.
Proof.
  intros aim c l (pre & post & E & Hl & Hp). exists (List.length pre). unfold search_aim. rewrite E. split.
  - clear E. cut (forall k, get (map fst (filter (fun q : nat * string => contains aim (snd q)) (combine (seq k (List.length (pre ++ l :: post))) (pre ++ l :: post)))) 0 = Ok (k + List.length pre)).
    { intros H0. rewrite H0. reflexivity. }
    induction Hp as [|x pre Hx Hp IH]; intros k.
    + cbn [app List.length seq combine filter snd]. rewrite Hl. cbn. rewrite Nat.add_0_r. reflexivity.
    + cbn [app List.length seq combine filter snd]. rewrite Hx. rewrite IH. f_equal. lia.
  - rewrite nth_error_app2 by lia. rewrite Nat.sub_diag. reflexivity.
Qed.

Lemma getline_nth : forall ls i l, nth_error ls i = Some l -> getline ls (S i) = l.
Proof. intros ls i l H0. cbn. apply nth_error_nth. exact H0. Qed.

Lemma end_nth : forall l ts k t, tokens_end l ts -> nth_error (rev ts) k = Some t -> from_end (split_ws l) k = Ok t.
Proof.
  intros l ts k t (pre & E) H0. unfold from_end. rewrite E, rev_app_distr.
  rewrite nth_error_app1 by (apply nth_error_Some; rewrite H0; discriminate). rewrite H0. reflexivity.
Qed.

Lemma tokens_new : forall d p c i l, d p = Some c -> nth_error (file_lines c) i = Some l ->
  snd (cached_tokens p (S i) (new_process d)) = Ok (split_ws l) /\
  held (fst (cached_tokens p (S i) (new_process d))) p = Some (file_lines c).
Proof.
  intros d p c i l Hd Hl. unfold cached_tokens, andthen, cached_lines, done. cbn [held disk new_process]. rewrite Hd.
  cbn [fst snd held]. split; [rewrite (getline_nth _ _ _ Hl); reflexivity|apply set_at_same].
Qed.

Lemma andthen_ok : forall A B (m : reader A) (f : A -> reader B) w a, snd (m w) = Ok a -> andthen m f w = f a (fst (m w)).
Proof. intros A B m f w a H0. unfold andthen. destruct (m w) as [w' r]. cbn in *. subst r. reflexivity. Qed.

Lemma mapM_forall2 : forall A B (f : A -> result B) l r, Forall2 (fun x y => f x = Ok y) l r -> mapM f l = Ok r.
Proof. intros A B f l r H0. induction H0 as [|x y l r E H0 IH]; [reflexivity|]. cbn. rewrite E, IH. reflexivity. Qed.

Lemma rep_new : forall aim d p c l t, d p = Some c -> first_line_with aim c l -> tokens_end l [t] ->
  snd (rep_token aim p (new_process d)) = Ok t.
Proof.
  intros aim d p c l t Hd Hf Ht. destruct (search_first aim c l Hf) as (i & Hi & Hl).
  unfold rep_token. rewrite (andthen_ok _ _ (opened p) _ _ c) by (cbn; rewrite Hd; reflexivity).
  change (fst (opened p (new_process d))) with (new_process d).
  rewrite (andthen_ok _ _ (of_result _) _ _ (S i)) by exact Hi. cbn [fst of_result].
  destruct (tokens_new d p c i l Hd Hl) as [E _]. rewrite (andthen_ok _ _ (cached_tokens p (S i)) _ _ _ E).
  cbn [of_result snd]. apply (end_nth l [t]); [exact Ht|reflexivity].
Qed.

Lemma fresh_says : forall d p c q x, d p = Some c -> says F int_of pfloat round3 c q x -> snd (ask q p (new_process d)) = Ok x.
Proof.
  intros d p c q x Hd H0. destruct H0 as [l t u x Hl Ht Hx|l a more b i j Hl Ha Hb Hi Hj|l a more n Hl Ha Hn|ws Hw|l t n Hl Ht Hn|l t n Hl Ht Hn|l t Hl Ht]; cbn [FreshModel.ask]; unfold lift.
  - destruct (tokens_new d p c 0 l Hd Hl) as [E _]. unfold get_efermi.
    rewrite (andthen_ok _ _ _ _ _ (round3 x)); [reflexivity|].
    rewrite (andthen_ok _ _ _ _ _ _ E). cbn [of_result snd]. rewrite (end_nth l [t; u] 1 t Ht eq_refl). cbn [bind]. rewrite Hx. reflexivity.
  - destruct (tokens_new d p c 1 l Hd Hl) as [E Eh]. unfold kpt_construct.
    rewrite (andthen_ok _ _ _ _ _ (i, j)); [reflexivity|].
    rewrite (andthen_ok _ _ _ _ _ _ E). rewrite (andthen_ok _ _ (of_result _) _ _ i) by (cbn [of_result snd]; rewrite Ha; cbn; exact Hi).
    cbn [fst of_result]. set (w := fst (cached_tokens p 2 (new_process d))) in *.
    assert (E2 : snd (cached_tokens p 2 w) = Ok (split_ws l)).
    { unfold cached_tokens, andthen, cached_lines, done. rewrite Eh. cbn [snd]. rewrite (getline_nth _ _ _ Hl). reflexivity. }
    rewrite (andthen_ok _ _ _ _ _ _ E2). cbn [of_result snd]. rewrite (end_nth l [b] 0 b Hb eq_refl). cbn [bind]. rewrite Hj. reflexivity.
  - destruct (tokens_new d p c 0 l Hd Hl) as [E _]. unfold kpt_num.
    rewrite (andthen_ok _ _ _ _ _ n); [reflexivity|].
    rewrite (andthen_ok _ _ _ _ _ _ E). cbn [of_result snd]. rewrite Ha. cbn. exact Hn.
  - unfold kpt_weights. rewrite (andthen_ok _ _ _ _ _ ws); [reflexivity|].
    rewrite (andthen_ok _ _ (opened p) _ _ c) by (cbn; rewrite Hd; reflexivity). cbn [of_result snd]. unfold weights, body.
    apply mapM_forall2. clear - Hw. induction Hw as [|y v ls vs (t & Et & Ev) Hw IH]; constructor; [|exact IH].
    unfold get. rewrite Et. cbn. exact Ev.
  - unfold rep_bands. rewrite (andthen_ok _ _ _ _ _ n); [reflexivity|].
    rewrite (andthen_ok _ _ _ _ _ _ (rep_new _ d p c l t Hd Hl Ht)). exact Hn.
  - unfold rep_kpts. rewrite (andthen_ok _ _ _ _ _ n); [reflexivity|].
    rewrite (andthen_ok _ _ _ _ _ _ (rep_new _ d p c l t Hd Hl Ht)). exact Hn.
  - unfold rep_atom. rewrite (andthen_ok _ _ _ _ _ t); [reflexivity|]. exact (rep_new _ d p c l t Hd Hl Ht).
Qed.
End Readers.
