(** Lemmas about the string operations of Text.v. *)
From Verif Require Import Text.

Lemma append_empty_r s : s +++ "" = s.
Proof. induction s as [|c s IH]; simpl; congruence. Qed.

Lemma append_assoc a b c : (a +++ b) +++ c = a +++ b +++ c.
Proof. induction a as [|x a IH]; simpl; congruence. Qed.

Lemma concat_str_app l1 l2 : concat_str (l1 ++ l2) = concat_str l1 +++ concat_str l2.
Proof. induction l1 as [|x l1 IH]; simpl; [reflexivity|]. rewrite IH, append_assoc. reflexivity. Qed.

Lemma concat_str_concat ls : concat_str (concat ls) = concat_str (map concat_str ls).
Proof. induction ls as [|x l IH]; simpl; [reflexivity|]. rewrite concat_str_app, IH. reflexivity. Qed.

Lemma append_inj_l a b c : a +++ b = a +++ c -> b = c.
Proof. induction a as [|x a IH]; simpl; intros H; [exact H|]. inversion H; auto. Qed.

Lemma starts_with_spec p s : starts_with p s = true <-> exists b, s = p +++ b.
Proof.
  revert s; induction p as [|a p IH]; intros s; simpl.
  - split; [intros _; exists s; reflexivity | reflexivity].
  - destruct s as [|b s]; simpl.
    + split; [discriminate | intros [b H]; discriminate].
    + rewrite andb_true_iff, Ascii.eqb_eq, IH. split.
      * intros [-> [b' ->]]. exists b'. reflexivity.
      * intros [b' H]. inversion H. split; [reflexivity|]. exists b'. reflexivity.
Qed.

Lemma contains_spec p s : contains p s = true <-> exists a b, s = a +++ p +++ b.
Proof.
  induction s as [|c s IH]; cbn [contains]; rewrite orb_true_iff, starts_with_spec.
  - split.
    + intros [[b H]|H]; [exists "", b; exact H | discriminate].
    + intros [a [b H]]. left. destruct a; [exists b; exact H | discriminate].
  - split.
    + intros [[b H]|H]; [exists "", b; exact H|].
      apply IH in H as [a [b ->]]. exists (String c a), b. reflexivity.
    + intros [a [b H]]. destruct a as [|x a].
      * left. exists b. exact H.
      * right. apply IH. exists a, b. simpl in H. inversion H. reflexivity.
Qed.

(** Characters whose comparison is not affected by [upper_char]. *)
Definition caseless (a : ascii) : Prop := forall c, Ascii.eqb a (upper_char c) = Ascii.eqb a c.

Fixpoint all_chars (P : ascii -> Prop) (s : string) : Prop :=
  match s with "" => True | String c s' => P c /\ all_chars P s' end.

Lemma caseless_dash : caseless "-"%char.
Proof. intros [[] [] [] [] [] [] [] []]; reflexivity. Qed.

Lemma starts_with_upper p s : all_chars caseless p -> starts_with p (upper s) = starts_with p s.
Proof.
  revert s; induction p as [|a p IH]; intros s; simpl; [reflexivity|].
  intros [Ha Hp]. destruct s as [|c s]; simpl; [reflexivity|].
  rewrite (Ha c), IH by exact Hp. reflexivity.
Qed.

Lemma contains_upper p s : all_chars caseless p -> contains p (upper s) = contains p s.
Proof.
  intros Hp. induction s as [|c s IH]; [reflexivity|].
  cbn [contains upper]. rewrite IH.
  change (String (upper_char c) (upper s)) with (upper (String c s)).
  rewrite starts_with_upper by exact Hp. reflexivity.
Qed.

(** * Lines *)
Fixpoint no_nl (s : string) : Prop :=
  match s with "" => True | String c s' => c <> nl /\ no_nl s' end.

Definition line_full (l : string) : Prop := exists x, l = x +++ String nl "" /\ no_nl x.

Inductive wf_lines : list string -> Prop :=
| wf_nil : wf_lines []
| wf_last l : no_nl l -> l <> "" -> wf_lines [l]
| wf_cons l ls : line_full l -> wf_lines ls -> wf_lines (l :: ls).

Lemma no_nl_app a b : no_nl (a +++ b) <-> no_nl a /\ no_nl b.
Proof. induction a as [|c a IH]; simpl; [tauto|]. rewrite IH. tauto. Qed.

Lemma file_lines_nonempty s : s <> "" -> file_lines s <> [].
Proof.
  destruct s as [|c s]; intros H; [congruence|]. cbn [file_lines].
  destruct (Ascii.eqb c nl); [discriminate|]. destruct (file_lines s); discriminate.
Qed.

Lemma concat_file_lines s : concat_str (file_lines s) = s.
Proof.
  induction s as [|c s IH]; [reflexivity|]. cbn [file_lines].
  destruct (Ascii.eqb c nl); cbn [concat_str]; simpl; [congruence|].
  destruct (file_lines s) as [|t ts]; simpl in *; congruence.
Qed.

Lemma file_lines_full x s : no_nl x ->
  file_lines (x +++ String nl s) = (x +++ String nl "") :: file_lines s.
Proof.
  induction x as [|c x IH]; intros Hx.
  - reflexivity.
  - destruct Hx as [Hc Hx]. cbn [String.append file_lines].
    apply Ascii.eqb_neq in Hc. rewrite Hc, IH by exact Hx. reflexivity.
Qed.

Lemma file_lines_last x : no_nl x -> x <> "" -> file_lines x = [x].
Proof.
  induction x as [|c x IH]; intros Hx Hne; [congruence|].
  destruct Hx as [Hc Hx]. cbn [file_lines]. apply Ascii.eqb_neq in Hc. rewrite Hc.
  destruct x as [|d x]; [reflexivity|]. rewrite IH by (exact Hx || discriminate). reflexivity.
Qed.

Lemma wf_file_lines s : wf_lines (file_lines s).
Proof.
  induction s as [|c s IH]; [constructor|]. cbn [file_lines].
  destruct (Ascii.eqb c nl) eqn:E.
  - apply Ascii.eqb_eq in E. subst c. constructor; [exists ""; split; [reflexivity|exact I]|exact IH].
  - apply Ascii.eqb_neq in E. destruct (file_lines s) as [|t ts].
    + apply wf_last; [split; [exact E|exact I]|discriminate].
    + inversion IH as [|l Hl Hne|l ls [x [-> Hx]] Hls]; subst.
      * apply wf_last; [split; assumption|discriminate].
      * apply wf_cons; [|exact Hls]. exists (String c x). split; [reflexivity|]. split; assumption.
Qed.

Lemma file_lines_concat ls : wf_lines ls -> file_lines (concat_str ls) = ls.
Proof.
  induction 1 as [|l Hl Hne|l ls [x [-> Hx]] Hls IH].
  - reflexivity.
  - cbn [concat_str]. rewrite append_empty_r. apply file_lines_last; assumption.
  - cbn [concat_str]. rewrite append_assoc. cbn [String.append].
    rewrite file_lines_full by exact Hx. rewrite IH. reflexivity.
Qed.

Lemma wf_lines_app_r l1 l2 : wf_lines (l1 ++ l2) -> wf_lines l2.
Proof.
  induction l1 as [|a l1 IH]; simpl; intros H; [exact H|].
  inversion H as [|l Hl Hne Heq|l ls Hf Hls]; subst.
  - destruct l1; simpl in *; [subst; constructor|discriminate].
  - apply IH. exact Hls.
Qed.

Lemma wf_lines_app_l l1 l2 : wf_lines (l1 ++ l2) -> wf_lines l1.
Proof.
  induction l1 as [|a l1 IH]; simpl; intros H; [constructor|].
  inversion H as [|l Hl Hne Heq|l ls Hf Hls]; subst.
  - destruct l1; simpl in *; [|discriminate]. apply wf_last; assumption.
  - constructor; [exact Hf|]. apply IH. exact Hls.
Qed.

Lemma split_on_nl row rest : no_nl row -> exists r, split_on nl (row +++ String nl rest) = row :: r.
Proof.
  induction row as [|c row IH]; intros H.
  - exists (split_on nl rest). reflexivity.
  - destruct H as [Hc H]. destruct (IH H) as [r Hr]. exists r.
    cbn [String.append split_on]. apply Ascii.eqb_neq in Hc. rewrite Hc, Hr. reflexivity.
Qed.

Lemma Forall2_nth {A B} {P : A -> B -> Prop} {l1 l2} : Forall2 P l1 l2 ->
  forall k a, nth_error l1 k = Some a -> exists b, nth_error l2 k = Some b /\ P a b.
Proof.
  induction 1 as [|x y l1 l2 Hp H IH]; intros [|k] a Hk; cbn in *; try discriminate.
  - injection Hk as <-. eauto.
  - auto.
Qed.

Lemma Forall2_nth_r {A B} {P : A -> B -> Prop} {l1 l2} : Forall2 P l1 l2 ->
  forall k b, nth_error l2 k = Some b -> exists a, nth_error l1 k = Some a /\ P a b.
Proof.
  induction 1 as [|x y l1 l2 Hp H IH]; intros [|k] a Hk; cbn in *; try discriminate.
  - injection Hk as <-. eauto.
  - auto.
Qed.

(** * Splitting on blanks *)
Definition flush (p : string * list string) : list string :=
  match fst p with "" => snd p | t => t :: snd p end.

Lemma split_ws_flush s : split_ws s = flush (split_ws_go s).
Proof. unfold split_ws, flush. destruct (split_ws_go s) as [t ts]. destruct t; reflexivity. Qed.

Lemma split_ws_go_tok t s : all_chars (fun c => is_space c = false) t ->
  split_ws_go (t +++ s) = (t +++ fst (split_ws_go s), snd (split_ws_go s)).
Proof.
  induction t as [|c t IH]; intros H; cbn [String.append split_ws_go].
  - destruct (split_ws_go s); reflexivity.
  - destruct H as [Hc H]. rewrite IH by exact H. rewrite Hc. reflexivity.
Qed.

Lemma split_ws_go_space c s : is_space c = true ->
  split_ws_go (String c s) = ("", flush (split_ws_go s)).
Proof.
  intros H. cbn [split_ws_go]. destruct (split_ws_go s) as [t ts]. rewrite H.
  unfold flush; cbn [fst snd]. destruct t; reflexivity.
Qed.

Lemma split_ws_blank b s : all_chars (fun c => is_space c = true) b -> split_ws (b +++ s) = split_ws s.
Proof.
  rewrite !split_ws_flush. induction b as [|c b IH]; intros H; cbn [String.append]; [reflexivity|].
  destruct H as [Hc H]. rewrite split_ws_go_space by exact Hc. unfold flush at 1; cbn [fst snd]. apply IH. exact H.
Qed.

Lemma all_chars_of (P : ascii -> Prop) s : (forall a c b, s = a +++ String c b -> P c) -> all_chars P s.
Proof.
  induction s as [|x s IH]; intros H; simpl; [exact I|]. split.
  - apply (H "" x s). reflexivity.
  - apply IH. intros a c b ->. apply (H (String x a) c b). reflexivity.
Qed.

Lemma split_ws_token t : all_chars (fun c => is_space c = false) t -> t <> "" -> split_ws t = [t].
Proof.
  intros H Hne. rewrite split_ws_flush. rewrite <- (append_empty_r t) at 1.
  rewrite split_ws_go_tok by exact H. cbn [split_ws_go fst snd]. rewrite append_empty_r.
  unfold flush; cbn [fst snd]. destruct t; [congruence|reflexivity].
Qed.

Lemma split_ws_token_cons t c s : all_chars (fun c => is_space c = false) t -> t <> "" -> is_space c = true ->
  split_ws (t +++ String c s) = t :: split_ws s.
Proof.
  intros H Hne Hc. rewrite !split_ws_flush. rewrite split_ws_go_tok by exact H.
  rewrite split_ws_go_space by exact Hc. cbn [fst snd]. rewrite append_empty_r.
  unfold flush at 1; cbn [fst snd]. destruct t; [congruence|reflexivity].
Qed.

Lemma Forall2_length {A B} {P : A -> B -> Prop} {l1 l2} : Forall2 P l1 l2 -> List.length l1 = List.length l2.
Proof. induction 1; cbn; congruence. Qed.
