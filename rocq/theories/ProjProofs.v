(** Proofs about projected densities of states and band weights. *)
From Coq Require Import String Ascii Reals Lra Lia Permutation.
From Verif Require Import Base Text TextProofs MovementModel NbMlffProofs ProjModel ProjSpec.
Local Open Scope string_scope.
Local Open Scope list_scope.
Local Open Scope nat_scope.
Local Open Scope R_scope.

(** ** Names *)

Lemma split_on_not_nil c s : split_on c s <> [].
Proof. destruct s as [|a s]; cbn [split_on]; [discriminate|]. destruct (Ascii.eqb a c); [discriminate|]. destruct (split_on c s); discriminate. Qed.
Lemma element_of_cons a s : element_of (String a s) = if Ascii.eqb a "-"%char then "" else String a (element_of s).
Proof.
  unfold element_of. cbn [split_on]. destruct (Ascii.eqb a "-"%char); [reflexivity|].
  destruct (split_on "-"%char s) eqn:E; [destruct (split_on_not_nil _ _ E)|]. reflexivity.
Qed.
Lemma no_dash_empty : no_dash "".
Proof. intros [|x a] b; discriminate. Qed.
Lemma no_dash_cons a e : a <> "-"%char -> no_dash e -> no_dash (String a e).
Proof.
  intros Ha He [|x u] b H; cbn [String.append] in H; [injection H as -> _; congruence|]. injection H as -> H. exact (He u b H).
Qed.
Lemma no_dash_tail a e : no_dash (String a e) -> a <> "-"%char /\ no_dash e.
Proof.
  intros H. split.
  - intros ->. exact (H "" e eq_refl).
  - intros u b ->. exact (H (String a u) b eq_refl).
Qed.
Lemma element_belongs n : belongs n (element_of n).
Proof.
  induction n as [|a s IH]; [split; [exact no_dash_empty|left; reflexivity]|].
  rewrite element_of_cons. destruct (Ascii.eqb_spec a "-"%char) as [->|N].
  - split; [exact no_dash_empty|]. right. exists s. reflexivity.
  - destruct IH as [D B]. split; [apply no_dash_cons; assumption|]. destruct B as [B|[o B]].
    + left. congruence.
    + right. exists o. cbn [String.append]. congruence.
Qed.
Lemma belongs_element n e : belongs n e -> element_of n = e.
Proof.
  revert n; induction e as [|a e IH]; intros n [D B].
  - destruct B as [->|[o ->]]; reflexivity.
  - apply no_dash_tail in D. destruct D as [Ha D]. apply Ascii.eqb_neq in Ha.
    destruct B as [->|[o ->]]; cbn [String.append]; rewrite element_of_cons, Ha; f_equal; apply IH; split; auto.
    right; eauto.
Qed.
Lemma belongs_iff n e : belongs n e <-> element_of n = e.
Proof. split; [apply belongs_element|intros <-; apply element_belongs]. Qed.
Lemma begins_iff n e : starts_with e n = true <-> begins n e.
Proof. apply starts_with_spec. Qed.
Lemma belongs_begins n e : belongs n e -> begins n e.
Proof. intros [_ [->|[o ->]]]; [exists ""; symmetry; apply append_empty_r|eexists; reflexivity]. Qed.

(** ** Sums *)

Lemma masked_sum_spec (keep : string -> bool) (P : string -> Prop) ns row :
  length ns = length row -> (forall n, In n ns -> (keep n = true <-> P n)) -> sum_where P ns row (masked_sum keep ns row).
Proof.
  revert row; induction ns as [|n ns IH]; intros [|x row] L H; try discriminate; [constructor|].
  unfold masked_sum. cbn [combine filter fst].
  assert (IHr : sum_where P ns row (masked_sum keep ns row)).
  { apply IH; [cbn in L; lia|]. intros; apply H; right; assumption. }
  destruct (keep n) eqn:E.
  - cbn [map snd add_up fold_right]. apply sum_yes; [apply H; [left; reflexivity|exact E]|exact IHr].
  - apply sum_no; [|exact IHr]. intros Hp. apply H in Hp; [congruence|left; reflexivity].
Qed.
Lemma sum_where_ext P Q ns row s : (forall n, In n ns -> (P n <-> Q n)) -> sum_where P ns row s -> sum_where Q ns row s.
Proof.
  intros H S0. induction S0 as [|n ns x xs s Hn S0 IH|n ns x xs s Hn S0 IH]; [constructor| |].
  - apply sum_yes; [apply H; [left; reflexivity|exact Hn]|]. apply IH; intros; apply H; right; assumption.
  - apply sum_no; [intros Hq; apply Hn, H; [left; reflexivity|exact Hq]|]. apply IH; intros; apply H; right; assumption.
Qed.
Lemma sum_where_fun P ns row s s' : sum_where P ns row s -> sum_where P ns row s' -> s = s'.
Proof.
  intros S1; revert s'. induction S1 as [|n ns x xs s Hn S1 IH|n ns x xs s Hn S1 IH]; intros s' S2; inversion S2; subst;
    try contradiction; auto. f_equal; auto.
Qed.
Lemma sum_where_none (P : string -> Prop) ns row s : (forall n, In n ns -> ~ P n) -> sum_where P ns row s -> s = 0.
Proof.
  intros H S1. induction S1 as [|n ns x xs s Hn S1 IH|n ns x xs s Hn S1 IH]; [reflexivity| |].
  - destruct (H n); [left; reflexivity|exact Hn].
  - apply IH. intros; apply H; right; assumption.
Qed.
Lemma sum_where_or (P Q : string -> Prop) ns row s t : (forall n, In n ns -> P n -> ~ Q n) -> sum_where P ns row s -> sum_where Q ns row t ->
  sum_where (fun n => P n \/ Q n) ns row (s + t).
Proof.
  intros H S1; revert t. induction S1 as [|n ns x xs s Hn S1 IH|n ns x xs s Hn S1 IH]; intros t S2; inversion S2; subst.
  - rewrite Rplus_0_r. constructor.
  - destruct (H n (or_introl eq_refl) Hn). assumption.
  - rewrite Rplus_assoc. apply sum_yes; [left; exact Hn|]. apply IH; [intros; apply H; [right|]; assumption|assumption].
  - match goal with |- sum_where _ _ _ (?a + (?b + ?c)) => replace (a + (b + c)) with (b + (a + c)) by ring end.
    apply sum_yes; [right; assumption|]. apply IH; [intros; apply H; [right|]; assumption|assumption].
  - apply sum_no; [intros [?|?]; contradiction|]. apply IH; [intros; apply H; [right|]; assumption|assumption].
Qed.

Lemma sum_where_false ns row : length ns = length row -> sum_where (fun _ => False) ns row 0.
Proof.
  revert row; induction ns as [|n ns IH]; intros [|x row] L; try discriminate; [constructor|].
  apply sum_no; [tauto|]. apply IH. cbn in L. lia.
Qed.
Lemma sum_where_length P ns row s : sum_where P ns row s -> length ns = length row.
Proof. induction 1; cbn; lia. Qed.

Lemma conserved els ns row vals : length ns = length row -> NoDup els ->
  Forall2 (fun e v => sum_where (fun n => belongs n e) ns row v) els vals ->
  sum_where (fun n => exists e, In e els /\ belongs n e) ns row (add_up vals).
Proof.
  intros L N F. induction F as [|e v els vals Hev F IH].
  - cbn. eapply sum_where_ext; [|apply sum_where_false, L]. cbn. firstorder.
  - inversion N as [|? ? Hn Nr]; subst. cbn [add_up fold_right].
    eapply sum_where_ext; [|eapply sum_where_or; [|exact Hev|exact (IH Nr)]].
    + intros n _. cbn [In]. split.
      * intros [H|(e' & H1 & H2)]; [exists e; auto|exists e'; auto].
      * intros (e' & [<-|H1] & H2); [left; exact H2|right; eauto].
    + intros n _ H1 (e' & H2 & H3). apply belongs_iff in H1. apply belongs_iff in H3. congruence.
Qed.

(** ** Frames *)

Definition rect (f : frame) : Prop := Forall (fun row => length row = length (names f)) (body f).

Lemma mapM_length {A B} (g : A -> result B) l o : mapM g l = Ok o -> length o = length l.
Proof. intros H. apply mapM_forall2 in H. induction H; cbn; lia. Qed.

Lemma read_rect fl lines f : read_csv fl lines = Ok f -> rect f.
Proof.
  unfold read_csv. destruct (filter _ lines) as [|head rows]; [discriminate|]. intros H.
  destruct (mapM _ rows) as [b|] eqn:E; [|discriminate]. cbn [bind] in H. injection H as <-. unfold rect. cbn [names body].
  apply mapM_forall2 in E. induction E as [|r y rows b Hr E IH]; constructor; [|exact IH].
  destruct (length r =? length head)%nat eqn:El; [|discriminate]. apply Nat.eqb_eq in El. apply mapM_length in Hr. lia.
Qed.
Lemma open_dos_rect fl lines f : open_dos fl lines = Ok f -> rect f.
Proof. destruct lines; [discriminate|]. apply read_rect. Qed.

Lemma map_nth_length {A} (g : A -> A) i l : length (map_nth g i l) = length l.
Proof. revert i; induction l as [|x r IH]; intros [|i]; cbn; auto. Qed.
Lemma fat_rect fl lines f : fat_frame fl lines = Ok f -> rect f.
Proof.
  unfold fat_frame. intros H. destruct (read_csv fl _) as [f0|] eqn:E; [|discriminate]. cbn [bind] in H.
  destruct (column (names f0) "KPOINT") as [i|]; [|discriminate]. cbn [bind] in H. injection H as <-.
  apply read_rect in E. unfold rect in *. cbn [names body]. rewrite Forall_map. eapply Forall_impl; [|exact E].
  intros row Hr. rewrite map_nth_length. exact Hr.
Qed.

Lemma column_spec l n i : column l n = Ok i -> exists a b, l = a ++ n :: b /\ ~ In n a /\ length a = i.
Proof.
  revert i; induction l as [|m r IH]; intros i H; cbn [column] in H; [discriminate|].
  destruct (String.eqb_spec n m) as [->|Ne].
  - injection H as <-. exists [], r. repeat split; auto.
  - destruct (column r n) as [j|] eqn:E; [|discriminate]. cbn [bind] in H. injection H as <-.
    destruct (IH j eq_refl) as (a & b & -> & Ha & <-). exists (m :: a), b. repeat split; auto.
    intros [->|H]; [congruence|contradiction].
Qed.
Lemma column_total l n : In n l -> exists i, column l n = Ok i.
Proof.
  induction l as [|m r IH]; intros H; [destruct H|]. cbn [column]. destruct (String.eqb_spec n m) as [->|Ne]; [eexists; reflexivity|].
  destruct H as [->|H]; [congruence|]. destruct (IH H) as [i ->]. eexists; reflexivity.
Qed.
Lemma column_err l n : ~ In n l -> column l n = Err KeyError.
Proof.
  induction l as [|m r IH]; intros H; [reflexivity|]. cbn [column]. destruct (String.eqb_spec n m) as [->|Ne]; [destruct H; left; reflexivity|].
  rewrite IH; [reflexivity|]. intros Hr. apply H. right. exact Hr.
Qed.
Lemma get_nth {A} (l : list A) i x : get l i = Ok x <-> nth_error l i = Some x.
Proof. unfold get. destruct (nth_error l i); split; congruence. Qed.
Lemma get_total {A} (l : list A) i : (i < length l)%nat -> exists x, get l i = Ok x.
Proof. intros H. unfold get. destruct (nth_error l i) eqn:E; [eexists; reflexivity|]. apply nth_error_None in E. lia. Qed.
Lemma entry_of ns row n i x : length ns = length row -> column ns n = Ok i -> get row i = Ok x -> entry_under n ns row x.
Proof.
  intros L C G. apply column_spec in C. destruct C as (a & b & -> & Ha & <-). apply get_nth in G.
  apply nth_error_split in G. destruct G as (u & v & -> & Hu). exists a, b, u, v. auto.
Qed.
Lemma column_lt l n i : column l n = Ok i -> (i < length l)%nat.
Proof. intros H. apply column_spec in H. destruct H as (a & b & -> & _ & <-). rewrite app_length. cbn. lia. Qed.

(** ** Densities of states *)

Section Dos.
Variable set_order : list string -> list string.
Hypothesis Hset : enumerates set_order.

Lemma sums_spec els f row : rect f -> In row (body f) ->
  Forall2 (fun e v => sum_where (fun n => begins n e) (names f) row v) els
    (map (fun el => masked_sum (starts_with el) (names f) row) els).
Proof.
  intros R Hr. unfold rect in R. rewrite Forall_forall in R. specialize (R row Hr).
  induction els as [|e els IH]; cbn [map]; constructor; [|exact IH].
  apply masked_sum_spec; [symmetry; exact R|]. intros n _. apply begins_iff.
Qed.

Lemma pdos_spec f g : rect f -> get_pdos_elements set_order f = Ok g ->
  exists els, names g = "Energy" :: els /\ NoDup els /\
  (forall e, In e els <-> exists n, In n (skipn 2 (names f)) /\ belongs n e) /\
  Forall2 (fun row row' => exists en vals, row' = en :: vals /\ entry_under "Energy" (names f) row en /\
    Forall2 (fun e v => sum_where (fun n => begins n e) (names f) row v) els vals) (body f) (body g).
Proof.
  intros R H. unfold get_pdos_elements in H. destruct (column (names f) "Energy") as [i|] eqn:C; [|discriminate]. cbn [bind] in H.
  destruct (mapM _ (body f)) as [b|] eqn:E; [|discriminate]. cbn [bind] in H. injection H as <-. cbn [names body].
  set (els := set_order (map element_of (skipn 2 (names f)))) in *. exists els. split; [reflexivity|].
  destruct (Hset (map element_of (skipn 2 (names f)))) as [N I]. fold els in N, I. split; [exact N|]. split.
  - intros e. rewrite I, in_map_iff. split; intros (n & H1 & H2); exists n; [split; [exact H2|apply belongs_iff, H1]|].
    split; [apply belongs_iff, H2|exact H1].
  - apply mapM_forall2 in E.
    assert (R' : forall row, In row (body f) -> length row = length (names f)) by (apply Forall_forall; exact R).
    assert (Su : forall row, In row (body f) -> Forall2 (fun e v => sum_where (fun n => begins n e) (names f) row v) els
      (map (fun el => masked_sum (starts_with el) (names f) row) els)) by (intros; apply sums_spec; assumption).
    revert R' Su E. generalize (body f). intros l R' Su E. induction E as [|row row' l b Hrow E IH]; constructor.
    + destruct (get row i) as [en|] eqn:G; [|discriminate]. cbn [bind] in Hrow. injection Hrow as <-.
      exists en. eexists. split; [reflexivity|]. split; [|apply Su; left; reflexivity].
      apply entry_of with i; [symmetry; apply R'; left; reflexivity|exact C|exact G].
    + apply IH; intros; [apply R'|apply Su]; right; assumption.
Qed.

Lemma pdos_total f : rect f -> In "Energy" (names f) -> exists g, get_pdos_elements set_order f = Ok g.
Proof.
  intros R H. unfold get_pdos_elements. destruct (column_total _ _ H) as [i C]. rewrite C. cbn [bind].
  destruct (mapM_total (fun row => bind (get row i) (fun e =>
         Ok (e :: map (fun el => masked_sum (starts_with el) (names f) row) (set_order (map element_of (skipn 2 (names f))))))) (body f)) as [b Hb].
  - intros row Hr. unfold rect in R. rewrite Forall_forall in R. specialize (R row Hr).
    destruct (get_total row i) as [x Hx]; [apply column_lt in C; lia|]. rewrite Hx. cbn [bind]. eexists; reflexivity.
  - cbv zeta. rewrite Hb. cbn [bind]. eexists; reflexivity.
Qed.
Lemma pdos_no_energy f : ~ In "Energy" (names f) -> get_pdos_elements set_order f = Err KeyError.
Proof. intros H. unfold get_pdos_elements. rewrite column_err by exact H. reflexivity. Qed.
End Dos.

Lemma own_sums els ns row vals : separated els ns ->
  Forall2 (fun e v => sum_where (fun n => begins n e) ns row v) els vals ->
  Forall2 (fun e v => sum_where (fun n => belongs n e) ns row v) els vals.
Proof.
  intros S0. assert (S1 : forall e n, In e els -> In n ns -> begins n e -> belongs n e) by exact S0. clear S0.
  intros F. induction F as [|e v els vals Hev F IH]; constructor.
  - eapply sum_where_ext; [|exact Hev]. intros n Hn. split; [apply S1; [left; reflexivity|exact Hn]|apply belongs_begins].
  - apply IH. intros; apply S1; [right|..]; assumption.
Qed.

(** The part of a sum that belongs to others. *)
Lemma excess ns row e v : sum_where (fun n => begins n e) ns row v ->
  exists own foreign, v = own + foreign /\ sum_where (fun n => belongs n e) ns row own /\
    sum_where (fun n => begins n e /\ ~ belongs n e) ns row foreign.
Proof.
  induction 1 as [|n ns x xs s Hn S1 IH|n ns x xs s Hn S1 IH].
  - exists 0, 0. repeat split; [ring|constructor..].
  - destruct IH as (o & g & -> & H1 & H2).
    destruct (string_dec (element_of n) e) as [E|E].
    + apply belongs_iff in E. exists (x + o), g. repeat split; [ring|apply sum_yes; assumption|].
      apply sum_no; [tauto|exact H2].
    + rewrite <- belongs_iff in E. exists o, (x + g). repeat split; [ring|apply sum_no; assumption|].
      apply sum_yes; [tauto|exact H2].
  - destruct IH as (o & g & -> & H1 & H2). exists o, g. repeat split.
    + apply sum_no; [|exact H1]. intros B. apply Hn, belongs_begins, B.
    + apply sum_no; [tauto|exact H2].
Qed.

(** ** Total density, orbitals *)

Lemma columns2 f a b g : rect f -> columns f [a; b] = Ok g ->
  names g = [a; b] /\ Forall2 (fun row row' => exists x y, row' = [x; y] /\ entry_under a (names f) row x /\ entry_under b (names f) row y) (body f) (body g).
Proof.
  intros R H. unfold columns in H. cbn [mapM] in H.
  destruct (column (names f) a) as [i|] eqn:Ca; [|discriminate]. cbn [bind] in H.
  destruct (column (names f) b) as [j|] eqn:Cb; [|discriminate]. cbn [bind] in H.
  destruct (mapM _ (body f)) as [bd|] eqn:E; [|discriminate]. cbn [bind] in H. injection H as <-. cbn [names body].
  split; [reflexivity|]. apply mapM_forall2 in E. unfold rect in R. rewrite Forall_forall in R.
  revert R E. generalize (body f). intros l R E. induction E as [|row row' l bd Hrow E IH]; constructor.
  - cbn [mapM] in Hrow. destruct (get row i) as [x|] eqn:Gx; [|discriminate]. cbn [bind] in Hrow.
    destruct (get row j) as [y|] eqn:Gy; [|discriminate]. cbn [bind] in Hrow. injection Hrow as <-.
    assert (L : length (names f) = length row) by (symmetry; apply R; left; reflexivity).
    exists x, y. split; [reflexivity|]. split; [apply entry_of with i|apply entry_of with j]; assumption.
  - apply IH. intros; apply R; right; assumption.
Qed.
Lemma columns_total f ns : rect f -> (forall n, In n ns -> In n (names f)) -> exists g, columns f ns = Ok g.
Proof.
  intros R H. unfold columns. destruct (mapM_total (column (names f)) ns) as [is His]; [intros n Hn; apply column_total, H, Hn|].
  rewrite His. cbn [bind].
  destruct (mapM_total (fun row => mapM (get row) is) (body f)) as [b Hb].
  - intros row Hr. apply mapM_total. intros i Hi. unfold rect in R. rewrite Forall_forall in R. specialize (R row Hr).
    apply get_total. apply mapM_forall2 in His. clear -His Hi R. induction His as [|n k ns is Hk F IH]; [destruct Hi|].
    destruct Hi as [->|Hi]; [apply column_lt in Hk; lia|auto].
  - rewrite Hb. cbn [bind]. eexists; reflexivity.
Qed.
Lemma columns_err f ns n : In n ns -> ~ In n (names f) -> columns f ns = Err KeyError.
Proof.
  intros Hn Hm. unfold columns. assert (E : mapM (column (names f)) ns = Err KeyError); [|rewrite E; reflexivity].
  induction ns as [|m r IH]; [destruct Hn|]. cbn [mapM].
  destruct (in_dec string_dec m (names f)) as [Hi|Hi].
  - destruct (column_total _ _ Hi) as [i ->]. cbn [bind]. destruct Hn as [->|Hn]; [contradiction|]. rewrite IH by exact Hn. reflexivity.
  - rewrite column_err by exact Hi. reflexivity.
Qed.

Lemma tdos_spec f : rect f -> In "Energy" (names f) ->
  (forall t, total_name (names f) t -> exists g, get_tdos f = Ok g /\ names g = ["Energy"; t] /\
    Forall2 (fun row row' => exists x y, row' = [x; y] /\ entry_under "Energy" (names f) row x /\ entry_under t (names f) row y) (body f) (body g)) /\
  (~ In "Total" (names f) -> ~ In "total" (names f) -> get_tdos f = Err KeyError).
Proof.
  intros R He. split.
  - intros t [[-> Ht]|[-> [Hn Ht]]]; unfold get_tdos.
    + destruct (columns_total f ["Energy"; "Total"] R) as [g Hg]; [cbn; intuition (subst; auto)|]. rewrite Hg.
      exists g. split; [reflexivity|]. apply columns2; assumption.
    + rewrite (columns_err f _ "Total") by (cbn; auto).
      destruct (columns_total f ["Energy"; "total"] R) as [g Hg]; [cbn; intuition (subst; auto)|]. rewrite Hg.
      exists g. split; [reflexivity|]. apply columns2; assumption.
  - intros H1 H2. unfold get_tdos. rewrite (columns_err f _ "Total") by (cbn; auto). apply (columns_err f _ "total"); cbn; auto.
Qed.

Lemma skipn_mid {A} (a : list A) x b : skipn (S (length a)) (a ++ x :: b) = b.
Proof. induction a as [|y a IH]; [reflexivity|]. cbn [length app]. rewrite skipn_cons. exact IH. Qed.
Lemma drop_spec f t g : drop_column f t = Ok g -> rect f ->
  exists a b, names f = a ++ t :: b /\ ~ In t a /\ names g = a ++ b /\
  Forall2 (fun row row' => exists u x v, row = u ++ x :: v /\ length u = length a /\ row' = u ++ v) (body f) (body g).
Proof.
  intros H R. unfold drop_column in H. destruct (column (names f) t) as [i|] eqn:C; [|discriminate]. cbn [bind] in H. injection H as <-.
  pose proof (column_lt _ _ _ C) as Lt. apply column_spec in C. destruct C as (a & b & E & Ha & <-). exists a, b. cbn [names body].
  split; [exact E|]. split; [exact Ha|]. split.
  - rewrite E. rewrite firstn_app, Nat.sub_diag, firstn_all. cbn [firstn]. rewrite app_nil_r. f_equal.
    apply skipn_mid.
  - unfold rect in R. rewrite E in Lt, R. revert R Lt. generalize (a ++ t :: b). intros ns R Lt.
    induction R as [|row l Hr R IH]; cbn [map]; constructor; [|exact IH].
    destruct (nth_error row (length a)) as [x|] eqn:En; [|apply nth_error_None in En; lia].
    apply nth_error_split in En. destruct En as (u & v & -> & Hu). exists u, x, v. split; [reflexivity|]. split; [exact Hu|].
    rewrite <- Hu. rewrite firstn_app, Nat.sub_diag, firstn_all. cbn [firstn]. rewrite app_nil_r. f_equal.
    apply skipn_mid.
Qed.
Lemma orbitals_spec f : rect f ->
  (forall t, total_name (names f) t -> exists g, get_pdos_orbitals f = Ok g /\
    exists a b, names f = a ++ t :: b /\ ~ In t a /\ names g = a ++ b /\
    Forall2 (fun row row' => exists u x v, row = u ++ x :: v /\ length u = length a /\ row' = u ++ v) (body f) (body g)) /\
  (~ In "Total" (names f) -> ~ In "total" (names f) -> get_pdos_orbitals f = Err KeyError).
Proof.
  intros R. split.
  - intros t [[-> Ht]|[-> [Hn Ht]]]; unfold get_pdos_orbitals.
    + destruct (drop_column f "Total") as [g|e] eqn:E.
      * exists g. split; [reflexivity|]. apply drop_spec; assumption.
      * unfold drop_column in E. destruct (column_total _ _ Ht) as [i C]. rewrite C in E. discriminate.
    + replace (drop_column f "Total") with (@Err frame KeyError) by (unfold drop_column; rewrite column_err by exact Hn; reflexivity).
      destruct (drop_column f "total") as [g|e] eqn:E.
      * exists g. split; [reflexivity|]. apply drop_spec; assumption.
      * unfold drop_column in E. destruct (column_total _ _ Ht) as [i C]. rewrite C in E. discriminate.
  - intros H1 H2. unfold get_pdos_orbitals, drop_column. rewrite !column_err by assumption. reflexivity.
Qed.
