(** Two input files of PWmat: proofs. *)
From Coq Require Import Lia Arith.
From Verif Require Import InputModel TextProofs InputSpec.
Local Open Scope string_scope.
Local Open Scope list_scope.
Local Open Scope nat_scope.

Definition plain (s : string) : Prop := all_chars (fun c => c <> "#"%char /\ c <> nl) s.

Lemma all_app P a b : all_chars P (a +++ b) <-> all_chars P a /\ all_chars P b.
Proof. induction a as [|c a IH]; cbn; [tauto|]. rewrite IH. tauto. Qed.
Lemma all_weak (P R : ascii -> Prop) s : (forall c, P c -> R c) -> all_chars P s -> all_chars R s.
Proof. intros H. induction s as [|c s IH]; cbn; [tauto|]. intros [A B]. auto. Qed.
Lemma word_chars t : word t -> t <> "" /\ all_chars (fun c => is_space c = false /\ c <> "#"%char) t.
Proof. intros [A B]. split; [exact A|]. apply all_chars_of. exact B. Qed.
Lemma word_plain t : word t -> plain t.
Proof. intros H. apply word_chars in H as [_ H]. revert H. apply all_weak. intros c [A B]. split; [exact B|]. intros ->. discriminate A. Qed.
Lemma word_tok t : word t -> t <> "" /\ all_chars (fun c => is_space c = false) t.
Proof. intros H. apply word_chars in H as [A H]. split; [exact A|]. revert H. apply all_weak. tauto. Qed.
Lemma plain_app a b : plain a -> plain b -> plain (a +++ b).
Proof. intros A B. apply all_app. auto. Qed.
Lemma plain_spaces n : plain (spaces n).
Proof. induction n as [|n IH]; cbn; [exact I|]. split; [split; discriminate|exact IH]. Qed.
Lemma blank_spaces n : all_chars (fun c => is_space c = true) (spaces n).
Proof. induction n as [|n IH]; cbn; auto. Qed.
Lemma plain_joined l : Forall word l -> plain (joined l).
Proof.
  induction 1 as [|t l Ht Hl IH]; [exact I|]. destruct l as [|u l]; [exact (word_plain t Ht)|].
  change (plain (t +++ " " +++ joined (u :: l))). apply plain_app; [exact (word_plain t Ht)|]. split; [split; discriminate|exact IH].
Qed.

Lemma before_plain a : plain a -> before_hash a = a.
Proof. induction a as [|c a IH]; cbn; [reflexivity|]. intros [[A _] B]. apply Ascii.eqb_neq in A. rewrite A. f_equal. auto. Qed.
Lemma before_hash_app a b : plain a -> before_hash (a +++ b) = a +++ before_hash b.
Proof. induction a as [|c a IH]; cbn; [reflexivity|]. intros [[A _] B]. apply Ascii.eqb_neq in A. rewrite A. f_equal. auto. Qed.
Lemma plain_no_nl a : plain a -> no_nl a.
Proof. induction a as [|c a IH]; cbn; tauto. Qed.

(** Words with blanks after them. *)
Lemma split_word t s : word t -> split_ws (t +++ String " " s) = t :: split_ws s.
Proof. intros H. apply word_tok in H as [A B]. apply split_ws_token_cons; auto. Qed.
Lemma split_blank b : all_chars (fun c => is_space c = true) b -> split_ws b = [].
Proof. intros H. rewrite <- (append_empty_r b). rewrite split_ws_blank by exact H. reflexivity. Qed.
Lemma split_word_end t b : word t -> all_chars (fun c => is_space c = true) b -> split_ws (t +++ b) = [t].
Proof.
  intros H Hb. destruct b as [|c b].
  - rewrite append_empty_r. apply word_tok in H as [A B]. apply split_ws_token; auto.
  - destruct Hb as [Hc Hb]. apply word_tok in H as [A B]. rewrite split_ws_token_cons by auto. f_equal. apply split_blank. exact Hb.
Qed.
Lemma split_joined l b : Forall word l -> all_chars (fun c => is_space c = true) b -> split_ws (joined l +++ b) = l.
Proof.
  intros H Hb. induction H as [|t l Ht Hl IH]; [exact (split_blank b Hb)|]. destruct l as [|u l]; [exact (split_word_end t b Ht Hb)|].
  change (split_ws ((t +++ " " +++ joined (u :: l)) +++ b) = t :: u :: l).
  rewrite append_assoc. change (split_ws (t +++ String " " (joined (u :: l) +++ b)) = t :: u :: l).
  rewrite split_word by exact Ht. f_equal. exact IH.
Qed.

(** One line of the file: data, comment, end of line. *)
Lemma line_data data comment rest : plain data -> no_nl comment ->
  data_lines (line (data +++ "  #" +++ comment) +++ rest) = split_ws (data +++ "  ") :: data_lines rest.
Proof.
  intros A B. unfold data_lines, line.
  rewrite append_assoc. cbn [String.append].
  rewrite file_lines_full; [|apply no_nl_app; split; [apply plain_no_nl; exact A|]; repeat split; try discriminate; exact B].
  cbn [map]. f_equal. rewrite append_assoc, before_hash_app by exact A. cbn. reflexivity.
Qed.
Lemma line_data1 data comment rest : plain data -> no_nl comment ->
  data_lines (line (data +++ " #" +++ comment) +++ rest) = split_ws (data +++ " ") :: data_lines rest.
Proof.
  intros A B. unfold data_lines, line.
  rewrite append_assoc. cbn [String.append].
  rewrite file_lines_full; [|apply no_nl_app; split; [apply plain_no_nl; exact A|]; repeat split; try discriminate; exact B].
  cbn [map]. f_equal. rewrite append_assoc, before_hash_app by exact A. cbn. reflexivity.
Qed.
Lemma line_bare data rest : plain data ->
  data_lines (line data +++ rest) = split_ws (data +++ String nl "") :: data_lines rest.
Proof.
  intros A. unfold data_lines, line. rewrite append_assoc. cbn [String.append].
  rewrite file_lines_full by (apply plain_no_nl; exact A). cbn [map]. f_equal. rewrite before_hash_app by exact A. reflexivity.
Qed.

(** Files. *)
Lemma read_put fs p t q : read_file (put_file fs p t) q = if (p =? q)%string then Some t else read_file fs q.
Proof.
  induction fs as [|[r u] fs IH]; cbn; [destruct (p =? q)%string; reflexivity|].
  destruct (String.eqb_spec r p) as [->|N]; cbn.
  - destruct (p =? q)%string; reflexivity.
  - rewrite IH. destruct (String.eqb_spec r q) as [->|M], (String.eqb_spec p q) as [->|K]; congruence.
Qed.

Section Proofs.
Context {V : Type} (show : V -> string) (fixed : V -> result string) (digits : Z -> string) (six : V).
Notation step := (step V show fixed digits).
Notation run := (run V show fixed digits).
Notation start := (start V six).
Hypothesis show_word : forall v, word (show v).
Hypothesis fixed_word : forall v t, fixed v = Ok t -> word t.
Hypothesis digits_word : forall z, word (digits z).

Lemma shown l : Forall word (map show l).
Proof. apply Forall_forall. intros x H. apply in_map_iff in H as [v [<- _]]. apply show_word. Qed.

Lemma with_file_same s path w : rest_same s (fst (with_file V s path w)) path /\ read_file (files V (fst (with_file V s path w))) path = Some (fst w).
Proof.
  unfold with_file, rest_same. cbn. repeat split.
  - intros q H. rewrite read_put. destruct (String.eqb_spec path q); congruence.
  - rewrite read_put, String.eqb_refl. reflexivity.
Qed.

Lemma two_heads d g : exists c1 c2, no_nl c1 /\ no_nl c2 /\
  exists r, dos_pieces V show fixed digits d g = Ok (line (show (d_atoms V d) +++ "  #" +++ c1)) :: Ok (line (show (d_method V d) +++ "  #" +++ c2)) :: r /\
  exists c3 c4 c5, no_nl c3 /\ no_nl c4 /\ no_nl c5 /\
  r = [bind (fixed (d_smear V d)) (fun s => bind (count_text V digits (d_energies V d)) (fun n => Ok (line (s +++ "  " +++ n +++ " #" +++ c3))));
       Ok (line (joined (map show g) +++ "  #" +++ c4)); Ok ("0  #" +++ c5)].
Proof.
  unfold dos_pieces. eexists _, _. split; [|split; [|eexists; split; [reflexivity|]]]; cycle 2.
  - eexists _, _, _. split; [|split; [|split; [|reflexivity]]]; cbn; repeat split; discriminate.
  - cbn; repeat split; discriminate.
  - cbn; repeat split; discriminate.
Qed.

Lemma dos_ok d g t z : fixed (d_smear V d) = Ok t -> d_energies V d = Whole V z ->
  exists c, written (dos_pieces V show fixed digits d g) = (c, None) /\
  data_lines c = [[show (d_atoms V d)]; [show (d_method V d)]; [t; digits z]; map show g; ["0"]].
Proof.
  intros F E. destruct (two_heads d g) as [c1 [c2 [N1 [N2 [r [Hr [c3 [c4 [c5 [N3 [N4 [N5 ->]]]]]]]]]]]]. rewrite Hr. clear Hr.
  rewrite F, E. cbn [bind count_text written]. eexists. split; [reflexivity|].
  rewrite line_data by (auto using word_plain). f_equal; [apply split_word_end; auto; cbn; auto|].
  rewrite line_data by (auto using word_plain). f_equal; [apply split_word_end; auto; cbn; auto|].
  assert (Wt := fixed_word _ _ F). assert (Wz := digits_word z).
  set (pad := spaces _).
  replace (t +++ "  " +++ (digits z +++ pad) +++ " #" +++ c3) with ((t +++ "  " +++ digits z +++ pad) +++ " #" +++ c3) by (rewrite !append_assoc; reflexivity).
  rewrite line_data1.
  2:{ apply plain_app; [auto using word_plain|]. apply plain_app; [repeat split; discriminate|]. apply plain_app; [auto using word_plain|apply plain_spaces]. }
  2:{ exact N3. }
  f_equal.
  { rewrite !append_assoc. cbn [String.append]. rewrite split_word by exact Wt. f_equal. change (String " " (digits z +++ pad +++ " ")) with (" " +++ (digits z +++ pad +++ " ")).
    rewrite split_ws_blank by (cbn; auto). apply split_word_end; [exact Wz|]. apply all_app. split; [apply blank_spaces|cbn; auto]. }
  rewrite line_data by (auto using plain_joined, shown). f_equal; [apply split_joined; [apply shown|cbn; auto]|].
  rewrite append_empty_r. unfold data_lines.
  rewrite file_lines_last; [|cbn; repeat split; try discriminate; exact N5|discriminate]. cbn. reflexivity.
Qed.
Lemma dos_bad d g : (exists e, fixed (d_smear V d) = Err e) \/ (exists v, d_energies V d = Other V v) ->
  exists c e, written (dos_pieces V show fixed digits d g) = (c, Some e) /\ data_lines c = [[show (d_atoms V d)]; [show (d_method V d)]].
Proof.
  intros H. destruct (two_heads d g) as [c1 [c2 [N1 [N2 [r [Hr [c3 [c4 [c5 [N3 [N4 [N5 ->]]]]]]]]]]]]. rewrite Hr. clear Hr.
  assert (B : exists e, bind (fixed (d_smear V d)) (fun s => bind (count_text V digits (d_energies V d)) (fun n => Ok (line (s +++ "  " +++ n +++ " #" +++ c3)))) = Err e).
  { destruct H as [[e ->]|[v ->]]; [exists e; reflexivity|]. destruct (fixed (d_smear V d)) as [s|e]; [exists ValueError; reflexivity|exists e; reflexivity]. }
  destruct B as [e Be]. cbn [written]. rewrite Be. eexists _, e. split; [reflexivity|].
  rewrite line_data by (auto using word_plain). f_equal; [apply split_word_end; auto; cbn; auto|].
  rewrite line_data by (auto using word_plain). f_equal. apply split_word_end; auto; cbn; auto.
Qed.

Lemma labelled label l rest : word label -> Forall word l ->
  data_lines (line (label +++ " = " +++ joined l) +++ rest) = (label :: "=" :: l) :: data_lines rest.
Proof.
  intros A B. rewrite line_bare; [|apply plain_app; [auto using word_plain|]; apply plain_app; [repeat split; discriminate|auto using plain_joined]].
  f_equal. rewrite !append_assoc. cbn [String.append]. rewrite split_word by exact A. f_equal.
  change (split_ws ("=" +++ String " " (joined l +++ String nl "")) = "=" :: l).
  rewrite split_word by (split; [discriminate|]; intros a c b H; destruct a as [|x a]; [injection H as <- <-; split; [reflexivity|discriminate]|injection H as _ H; destruct a; discriminate H]).
  f_equal. apply split_joined; [exact B|cbn; auto].
Qed.
Lemma word_check t : t <> "" -> all_chars (fun c => is_space c = false /\ c <> "#"%char) t -> word t.
Proof.
  intros A B. split; [exact A|]. intros a c b ->. apply all_app in B as [_ [B _]]. exact B.
Qed.
Lemma vext_ok x g : exists c, written (vext_pieces V show digits x g) = (c, None) /\
  data_lines c = [("VR_CENTER" :: "=" :: map show g); ["VR_TYPE"; "="; digits (x_type V x)]; ("VR_DETAIL" :: "=" :: map show (x_details V x)); ["ADD_VR"; "="; if x_add V x then "T" else "F"]].
Proof.
  unfold vext_pieces. cbn [written]. eexists. split; [reflexivity|].
  assert (W : forall t, all_chars (fun c => is_space c = false /\ c <> "#"%char) t -> t <> "" -> word t) by (intros; apply word_check; assumption).
  change ("VR_CENTER = " +++ joined (map show g)) with ("VR_CENTER" +++ " = " +++ joined (map show g)).
  rewrite labelled; [|apply W; [cbn; repeat split; discriminate|discriminate]|apply shown]. f_equal.
  change ("VR_TYPE = " +++ digits (x_type V x)) with ("VR_TYPE" +++ " = " +++ joined [digits (x_type V x)]).
  rewrite labelled; [|apply W; [cbn; repeat split; discriminate|discriminate]|constructor; [apply digits_word|constructor]]. f_equal.
  change ("VR_DETAIL = " +++ joined (map show (x_details V x))) with ("VR_DETAIL" +++ " = " +++ joined (map show (x_details V x))).
  rewrite labelled; [|apply W; [cbn; repeat split; discriminate|discriminate]|apply shown]. f_equal.
  destruct (x_add V x).
  - change ("ADD_VR = " +++ "T") with ("ADD_VR" +++ " = " +++ joined ["T"]).
    rewrite labelled; [reflexivity|apply W; [cbn; repeat split; discriminate|discriminate]|]. constructor; [|constructor]. apply W; [cbn; repeat split; discriminate|discriminate].
  - change ("ADD_VR = " +++ "F") with ("ADD_VR" +++ " = " +++ joined ["F"]).
    rewrite labelled; [reflexivity|apply W; [cbn; repeat split; discriminate|discriminate]|]. constructor; [|constructor]. apply W; [cbn; repeat split; discriminate|discriminate].
Qed.

Lemma write_dos s d o g path t z : nth_error (doses V s) d = Some o -> grid_of s d = Some g -> fixed (d_smear V o) = Ok t -> d_energies V o = Whole V z ->
  exists s' c, step (WriteDos V d path) s = (s', None) /\ rest_same s s' path /\ read_file (files V s') path = Some c /\
  data_lines c = [[show (d_atoms V o)]; [show (d_method V o)]; [t; digits z]; map show g; ["0"]].
Proof.
  intros Ho Hg F E. unfold grid_of in Hg. rewrite Ho in Hg. destruct (dos_ok o g t z F E) as [c [Hw Hc]].
  cbn [InputModel.step]. rewrite Ho. rewrite (nth_error_nth _ _ [] Hg). rewrite Hw.
  destruct (with_file_same s path (c, None)) as [A B]. eexists _, c. split; [|split; [exact A|split; [exact B|exact Hc]]]. reflexivity.
Qed.
Lemma write_dos_bad s d o g path : nth_error (doses V s) d = Some o -> grid_of s d = Some g -> (exists e, fixed (d_smear V o) = Err e) \/ (exists v, d_energies V o = Other V v) ->
  exists s' e c, step (WriteDos V d path) s = (s', Some e) /\ rest_same s s' path /\ read_file (files V s') path = Some c /\
  data_lines c = [[show (d_atoms V o)]; [show (d_method V o)]].
Proof.
  intros Ho Hg F. unfold grid_of in Hg. rewrite Ho in Hg. destruct (dos_bad o g F) as [c [e [Hw Hc]]].
  cbn [InputModel.step]. rewrite Ho. rewrite (nth_error_nth _ _ [] Hg). rewrite Hw.
  destruct (with_file_same s path (c, Some e)) as [A B]. eexists _, e, c. split; [|split; [exact A|split; [exact B|exact Hc]]]. reflexivity.
Qed.
Lemma write_vext s x o g path : nth_error (vexts V s) x = Some o -> nth_error (lists V s) (x_center V o) = Some g ->
  exists s' c, step (WriteVext V x path) s = (s', None) /\ rest_same s s' path /\ read_file (files V s') path = Some c /\
  data_lines c = [("VR_CENTER" :: "=" :: map show g); ["VR_TYPE"; "="; digits (x_type V o)]; ("VR_DETAIL" :: "=" :: map show (x_details V o)); ["ADD_VR"; "="; if x_add V o then "T" else "F"]].
Proof.
  intros Ho Hg. destruct (vext_ok o g) as [c [Hw Hc]].
  cbn [InputModel.step]. rewrite Ho. rewrite (nth_error_nth _ _ [] Hg). rewrite Hw.
  destruct (with_file_same s path (c, None)) as [A B]. eexists _, c. split; [|split; [exact A|split; [exact B|exact Hc]]]. reflexivity.
Qed.

Lemma new_vext s c g t a l : nth_error (lists V s) c = Some g ->
  if ((t =? 1) || (t =? 2) || (t =? 3))%Z%bool
  then snd (step (NewVext V c t a l) s) = None /\ nth_error (vexts V (fst (step (NewVext V c t a l) s))) (List.length (vexts V s)) = Some {| x_center := c; x_type := t; x_add := a; x_details := l |}
  else step (NewVext V c t a l) s = (s, Some AssertionError).
Proof.
  intros H. cbn [InputModel.step]. rewrite H. destruct (((t =? 1) || (t =? 2) || (t =? 3))%Z%bool); [|reflexivity].
  cbn. split; [reflexivity|]. rewrite nth_error_app2, Nat.sub_diag by lia. reflexivity.
Qed.
End Proofs.

(** Shared lists. *)
Lemma put_at_nth {A} (l : list A) i x j : nth_error (put_at l i x) j = if Nat.eqb i j then (if Nat.ltb i (List.length l) then Some x else None) else nth_error l j.
Proof.
  revert i j. induction l as [|y l IH]; intros [|i] [|j]; cbn; try reflexivity.
  - destruct (Nat.eqb i j); reflexivity.
  - rewrite IH. reflexivity.
Qed.
Lemma put_at_length {A} (l : list A) i x : List.length (put_at l i x) = List.length l.
Proof. revert i. induction l as [|y l IH]; intros [|i]; cbn; auto. Qed.

Section Shared.
Context {V : Type} (show : V -> string) (fixed : V -> result string) (digits : Z -> string) (six : V).
Notation step := (step V show fixed digits).
Notation run := (run V show fixed digits).
Notation start := (start V six).

(** Every object holds a list that exists. *)
Definition good (s : state V) : Prop :=
  0 < List.length (lists V s) /\ (forall d o, nth_error (doses V s) d = Some o -> d_grid V o < List.length (lists V s)) /\
  (forall x o, nth_error (vexts V s) x = Some o -> x_center V o < List.length (lists V s)).
Lemma good_start : good start.
Proof. repeat split; cbn; [lia| |]; intros [|d] o H; discriminate H. Qed.
Lemma set_list_good s r i v : good s -> good (fst (set_list V s r i v)).
Proof.
  intros [A [B C]]. unfold set_list. destruct (nth_error (lists V s) r) as [l|]; [|repeat split; assumption].
  destruct (Nat.ltb i (List.length l)); [|repeat split; assumption]. unfold good. cbn. rewrite put_at_length. auto.
Qed.
Lemma step_good c s : good s -> good (fst (step c s)).
Proof.
  intros G. destruct c as [l|r i v|a m e n g|d i v|d path|c t a l|x path]; cbn [InputModel.step].
  - destruct G as [A [B C]]. unfold good. cbn. rewrite app_length. cbn. repeat split; [lia| |]; intros d o H; [specialize (B d o H)|specialize (C d o H)]; lia.
  - apply set_list_good. exact G.
  - destruct (nth_error (lists V s) match g with Some r => r | None => 0 end) as [l|] eqn:E; [|exact G].
    destruct G as [A [B C]]. unfold good. cbn. repeat split; [exact A| |exact C]. intros d o H.
    destruct (Nat.lt_ge_cases d (List.length (doses V s))) as [L|L]; [rewrite nth_error_app1 in H by exact L; exact (B d o H)|].
    rewrite nth_error_app2 in H by exact L. destruct (d - List.length (doses V s)) as [|k]; [|destruct k; discriminate H].
    injection H as <-. cbn. apply nth_error_Some. congruence.
  - destruct (nth_error (doses V s) d) as [o|]; [|exact G]. apply set_list_good. exact G.
  - destruct (nth_error (doses V s) d) as [o|]; [|exact G]. exact G.
  - destruct (nth_error (lists V s) c) as [l'|] eqn:E; [|exact G]. destruct (_ || _)%bool; [|exact G].
    destruct G as [A [B C]]. unfold good. cbn. repeat split; [exact A|exact B|]. intros d o H.
    destruct (Nat.lt_ge_cases d (List.length (vexts V s))) as [L|L]; [rewrite nth_error_app1 in H by exact L; exact (C d o H)|].
    rewrite nth_error_app2 in H by exact L. destruct (d - List.length (vexts V s)) as [|k]; [|destruct k; discriminate H].
    injection H as <-. cbn. apply nth_error_Some. congruence.
  - destruct (nth_error (vexts V s) x) as [o|]; exact G.
Qed.
Lemma run_good p s : good s -> good (run p s).
Proof. revert s. induction p as [|c p IH]; intros s G; [exact G|]. cbn. apply IH. apply step_good. exact G. Qed.
Lemma shows p d o : nth_error (doses V (run p start)) d = Some o -> exists g, grid_of (run p start) d = Some g.
Proof.
  intros H. unfold grid_of. rewrite H. destruct (run_good p start good_start) as [_ [B _]].
  specialize (B d o H). destruct (nth_error (lists V (run p start)) (d_grid V o)) as [g|] eqn:E; [exists g; reflexivity|].
  apply nth_error_None in E. lia.
Qed.
Lemma centres p x o : nth_error (vexts V (run p start)) x = Some o -> exists g, nth_error (lists V (run p start)) (x_center V o) = Some g.
Proof.
  intros H. destruct (run_good p start good_start) as [_ [_ B]].
  specialize (B x o H). destruct (nth_error (lists V (run p start)) (x_center V o)) as [g|] eqn:E; [exists g; reflexivity|].
  apply nth_error_None in E. lia.
Qed.

(** Objects are never changed; only lists are. *)
Lemma set_list_doses s r i v : doses V (fst (set_list V s r i v)) = doses V s.
Proof. unfold set_list. destruct (nth_error (lists V s) r) as [l|]; [destruct (Nat.ltb i (List.length l))|]; reflexivity. Qed.
Lemma step_doses c s : exists m, doses V (fst (step c s)) = doses V s ++ m.
Proof.
  destruct c as [l|r i v|a m e n g|d i v|d path|c t a l|x path]; cbn [InputModel.step].
  - exists []. cbn. rewrite app_nil_r. reflexivity.
  - exists []. rewrite set_list_doses, app_nil_r. reflexivity.
  - destruct (nth_error (lists V s) _); [eexists; reflexivity|exists []; cbn; rewrite app_nil_r; reflexivity].
  - destruct (nth_error (doses V s) d); [exists []; rewrite set_list_doses, app_nil_r; reflexivity|exists []; cbn; rewrite app_nil_r; reflexivity].
  - destruct (nth_error (doses V s) d); exists []; cbn; rewrite app_nil_r; reflexivity.
  - destruct (nth_error (lists V s) c); [destruct (_ || _)%bool|]; exists []; cbn; rewrite app_nil_r; reflexivity.
  - destruct (nth_error (vexts V s) x); exists []; cbn; rewrite app_nil_r; reflexivity.
Qed.
Lemma run_doses p s : exists m, doses V (run p s) = doses V s ++ m.
Proof.
  revert s. induction p as [|c p IH]; intros s; cbn; [exists []; rewrite app_nil_r; reflexivity|].
  destruct (IH (fst (step c s))) as [m ->]. destruct (step_doses c s) as [k ->]. exists (k ++ m). rewrite app_assoc. reflexivity.
Qed.
Lemma run_app p q s : run (p ++ q) s = run q (run p s).
Proof. revert s. induction p as [|c p IH]; intros s; cbn; auto. Qed.
Lemma kept p s d o : nth_error (doses V s) d = Some o -> nth_error (doses V (run p s)) d = Some o.
Proof.
  intros H. destruct (run_doses p s) as [m ->]. rewrite nth_error_app1; [exact H|]. apply nth_error_Some. congruence.
Qed.
Lemma new_default s a m e n : good s -> nth_error (doses V (fst (step (NewDos V a m e n None) s))) (List.length (doses V s)) = Some {| d_atoms := a; d_method := m; d_smear := e; d_energies := n; d_grid := 0 |}.
Proof.
  intros [A _]. cbn [InputModel.step]. destruct (nth_error (lists V s) 0) eqn:E; [|apply nth_error_None in E; lia].
  cbn. rewrite nth_error_app2, Nat.sub_diag by lia. reflexivity.
Qed.

(** Any two objects made without a grid show the same one for ever. *)
Lemma defaults_agree p q r a m e n a' m' e' n' :
  let p1 := p ++ [NewDos V a m e n None] in
  let s := run (p1 ++ q ++ [NewDos V a' m' e' n' None] ++ r) start in
  exists g, grid_of s (List.length (doses V (run p start))) = Some g /\ grid_of s (List.length (doses V (run (p1 ++ q) start))) = Some g.
Proof.
  cbn zeta. set (p1 := p ++ [NewDos V a m e n None]). set (s := run _ start).
  assert (A : nth_error (doses V s) (List.length (doses V (run p start))) = Some {| d_atoms := a; d_method := m; d_smear := e; d_energies := n; d_grid := 0 |}).
  { unfold s, p1. rewrite <- app_assoc, run_app. cbn [app InputModel.run]. apply kept. apply new_default. apply run_good. apply good_start. }
  assert (B : nth_error (doses V s) (List.length (doses V (run (p1 ++ q) start))) = Some {| d_atoms := a'; d_method := m'; d_smear := e'; d_energies := n'; d_grid := 0 |}).
  { unfold s. rewrite app_assoc, run_app. cbn [app InputModel.run]. apply kept. apply new_default. apply run_good. apply good_start. }
  destruct (shows _ _ _ A) as [g Hg]. fold s in Hg. exists g. split; [exact Hg|].
  unfold grid_of in *. rewrite A in Hg. rewrite B. exact Hg.
Qed.

(** What a change of one object's grid does to every object. *)
Lemma set_grid s d i v s' : step (SetGrid V d i v) s = (s', None) -> doses V s' = doses V s /\ vexts V s' = vexts V s /\ files V s' = files V s /\
  forall e, (same_list s d e -> exists l m, grid_of s e = Some l /\ grid_of s' e = Some m /\ changed_at l i v m) /\ (~ same_list s d e -> grid_of s' e = grid_of s e).
Proof.
  cbn [InputModel.step]. destruct (nth_error (doses V s) d) as [o|] eqn:Ed; [|discriminate]. unfold set_list.
  destruct (nth_error (lists V s) (d_grid V o)) as [l|] eqn:El; [|discriminate]. destruct (Nat.ltb i (List.length l)) eqn:Ei; [|discriminate].
  intros H. injection H as <-. cbn. split; [reflexivity|]. split; [reflexivity|]. split; [reflexivity|].
  assert (Ho : d_grid V o < List.length (lists V s)) by (apply nth_error_Some; congruence).
  intros e. unfold grid_of. cbn. destruct (nth_error (doses V s) e) as [q|] eqn:Ee.
  - rewrite put_at_nth. replace (Nat.ltb (d_grid V o) (List.length (lists V s))) with true by (symmetry; apply Nat.ltb_lt; exact Ho). split.
    + intros [o' [q' [A [B C]]]]. rewrite Ed in A. injection A as <-. rewrite Ee in B. injection B as <-. rewrite <- C, Nat.eqb_refl.
      exists l, (put_at l i v). split; [exact El|]. split; [reflexivity|]. split; [apply Nat.ltb_lt; exact Ei|]. intros j. rewrite put_at_nth, Ei. reflexivity.
    + intros N. destruct (Nat.eqb_spec (d_grid V o) (d_grid V q)) as [E|E]; [|reflexivity]. elim N. exists o, q. auto.
  - split; [|reflexivity]. intros [o' [q' [_ [B _]]]]. congruence.
Qed.
Lemma default_changed a m e n v : grid_of (run [NewDos V a m e n None; SetGrid V 0 0 v; NewDos V a m e n None] start) 1 = Some [v; six; six].
Proof. reflexivity. Qed.
(** A list of one's own is not touched by changes through objects made without a grid. *)
Lemma own_list l a m e n : let s := run [NewList V l; NewDos V a m e n (Some 1); NewDos V a m e n None] start in grid_of s 0 = Some l /\ ~ same_list s 0 1.
Proof. cbn. split; [reflexivity|]. intros [o [q [A [B C]]]]. cbn in A, B. injection A as <-. injection B as <-. discriminate C. Qed.
End Shared.

Section Final.
Context {V : Type} (show : V -> string) (fixed : V -> result string) (digits : Z -> string) (six : V).
Notation step := (step V show fixed digits).
Notation run := (run V show fixed digits).
Notation start := (start V six).
Lemma dos_written p d o path t z : let s := run p start in
  (forall v, word (show v)) -> (forall v t, fixed v = Ok t -> word t) -> (forall z, word (digits z)) ->
  nth_error (doses V s) d = Some o -> fixed (d_smear V o) = Ok t -> d_energies V o = Whole V z ->
  exists g s' c, grid_of s d = Some g /\ step (WriteDos V d path) s = (s', None) /\ rest_same s s' path /\ read_file (files V s') path = Some c /\
  data_lines c = [[show (d_atoms V o)]; [show (d_method V o)]; [t; digits z]; map show g; ["0"]].
Proof.
  intros s A B C Ho F E. destruct (shows show fixed digits six p d o Ho) as [g Hg].
  destruct (write_dos show fixed digits A B C s d o g path t z Ho Hg F E) as [s' [c H]]. exists g, s', c. split; [exact Hg|exact H].
Qed.
Lemma spaces_padded s w : padded w s (s +++ spaces (w - String.length s)).
Proof.
  exists (spaces (w - String.length s)). split; [reflexivity|]. split.
  - assert (A : forall n a c b, spaces n = a +++ String c b -> c = " "%char).
    { induction n as [|n IH]; intros a c b H; [destruct a; discriminate|]. destruct a as [|x a]; cbn in H; [injection H as <- _; reflexivity|]. injection H as _ H. exact (IH a c b H). }
    exact (A _).
  - assert (L : forall a b, String.length (a +++ b) = (String.length a + String.length b)%nat) by (intros a b; induction a as [|k a IH]; cbn; [reflexivity|now rewrite IH]).
    assert (N : forall n, String.length (spaces n) = n) by (induction n as [|n IH]; cbn; [reflexivity|now rewrite IH]).
    rewrite L, N. lia.
Qed.
Lemma dos_count p d o path t z : let s := run p start in
  nth_error (doses V s) d = Some o -> fixed (d_smear V o) = Ok t -> d_energies V o = Whole V z ->
  exists a f b, read_file (files V (fst (step (WriteDos V d path) s))) path = Some (a +++ String nl (t +++ "  " +++ f +++ " #" +++ b)) /\ padded 10 (digits z) f.
Proof.
  intros s Ho F E. destruct (shows show fixed digits six p d o Ho) as [g Hg]. unfold grid_of in Hg. fold s in Hg. rewrite Ho in Hg.
  cbn [InputModel.step]. rewrite Ho, (nth_error_nth _ _ [] Hg). destruct (with_file_same s path (written (dos_pieces V show fixed digits o g))) as [_ W].
  destruct (two_heads show fixed digits o g) as [c1 [c2 [N1 [N2 [r [Hr [c3 [c4 [c5 [N3 [N4 [N5 ->]]]]]]]]]]]]. rewrite Hr in *. clear Hr. rewrite F, E in *.
  cbn [bind count_text written fst] in *. rewrite W. exists (line (show (d_atoms V o) +++ "  #" +++ c1) +++ (show (d_method V o) +++ "  #" +++ c2)), (digits z +++ spaces (10 - String.length (digits z))).
  eexists. split; [|apply spaces_padded]. f_equal. unfold line. rewrite !append_assoc. cbn [String.append]. rewrite ?append_assoc. reflexivity.
Qed.
Lemma dos_broken p d o path : let s := run p start in
  (forall v, word (show v)) ->
  nth_error (doses V s) d = Some o -> (exists e, fixed (d_smear V o) = Err e) \/ (exists v, d_energies V o = Other V v) ->
  exists s' e c, step (WriteDos V d path) s = (s', Some e) /\ rest_same s s' path /\ read_file (files V s') path = Some c /\
  data_lines c = [[show (d_atoms V o)]; [show (d_method V o)]].
Proof.
  intros s A Ho F. destruct (shows show fixed digits six p d o Ho) as [g Hg].
  exact (write_dos_bad show fixed digits A s d o g path Ho Hg F).
Qed.
Lemma vext_written p x o path : let s := run p start in
  (forall v, word (show v)) -> (forall z, word (digits z)) -> nth_error (vexts V s) x = Some o ->
  exists g s' c, nth_error (lists V s) (x_center V o) = Some g /\ step (WriteVext V x path) s = (s', None) /\ rest_same s s' path /\ read_file (files V s') path = Some c /\
  data_lines c = ["VR_CENTER" :: "=" :: map show g; ["VR_TYPE"; "="; digits (x_type V o)]; "VR_DETAIL" :: "=" :: map show (x_details V o); ["ADD_VR"; "="; if x_add V o then "T" else "F"]].
Proof.
  intros s A C Ho. destruct (centres show fixed digits six p x o Ho) as [g Hg].
  destruct (write_vext show fixed digits A C s x o g path Ho Hg) as [s' [c H]]. exists g, s', c. split; [exact Hg|exact H].
Qed.
Lemma default_breaks v : v <> six ->
  ~ forall p a m e n, let s := run p start in
    grid_of (fst (step (NewDos V a m e n None) s)) (List.length (doses V s)) = Some [six; six; six].
Proof.
  intros N H. specialize (H [NewDos V v v v (Other V v) None; SetGrid V 0 0 v] v v v (Other V v)). cbn in H. injection H. exact N.
Qed.
Lemma keeps c s : (forall r i v, c <> SetList V r i v) -> (forall d i v, c <> SetGrid V d i v) -> exists m, lists V (fst (step c s)) = lists V s ++ m.
Proof.
  intros A B. destruct c as [l|r i v|a m e n g|d i v|d path|c t a l|x path]; cbn [InputModel.step].
  - exists [l]. reflexivity.
  - elim (A r i v eq_refl).
  - destruct (nth_error (lists V s) _); exists []; cbn; rewrite app_nil_r; reflexivity.
  - elim (B d i v eq_refl).
  - destruct (nth_error (doses V s) d); exists []; cbn; rewrite app_nil_r; reflexivity.
  - destruct (nth_error (lists V s) c); [destruct (_ || _)%bool|]; exists []; cbn; rewrite app_nil_r; reflexivity.
  - destruct (nth_error (vexts V s) x); exists []; cbn; rewrite app_nil_r; reflexivity.
Qed.
Lemma keeps_run p s : (forall r i v, ~ In (SetList V r i v) p) -> (forall d i v, ~ In (SetGrid V d i v) p) -> exists m, lists V (run p s) = lists V s ++ m.
Proof.
  revert s. induction p as [|c p IH]; intros s A B; cbn; [exists []; rewrite app_nil_r; reflexivity|].
  destruct (keeps c s) as [k Hk]; [intros r i v ->; exact (A r i v (or_introl eq_refl))|intros d i v ->; exact (B d i v (or_introl eq_refl))|].
  destruct (IH (fst (step c s))) as [m Hm]; [intros r i v H; exact (A r i v (or_intror H))|intros d i v H; exact (B d i v (or_intror H))|].
  exists (k ++ m). rewrite Hm, Hk, app_assoc. reflexivity.
Qed.
Lemma default_kept p a m e n : (forall r i v, ~ In (SetList V r i v) p) -> (forall d i v, ~ In (SetGrid V d i v) p) ->
  let s := run p start in
  grid_of (fst (step (NewDos V a m e n None) s)) (List.length (doses V s)) = Some [six; six; six].
Proof.
  intros A B s. unfold grid_of. rewrite new_default by (apply run_good; apply good_start). cbn [d_grid].
  destruct (keeps_run p start A B) as [k Hk]. fold s in Hk. cbn [InputModel.start lists] in Hk. cbn [InputModel.step]. destruct (nth_error (lists V s) 0) eqn:E; cbn [fst lists]; rewrite Hk; reflexivity.
Qed.
Lemma vext_type s c g t a l : nth_error (lists V s) c = Some g ->
  ((1 <= t <= 3)%Z <-> snd (step (NewVext V c t a l) s) = None) /\
  (~ (1 <= t <= 3)%Z -> step (NewVext V c t a l) s = (s, Some AssertionError)).
Proof.
  intros H. assert (N := new_vext show fixed digits s c g t a l H).
  destruct ((t =? 1) || (t =? 2) || (t =? 3))%Z%bool eqn:E.
  - destruct N as [N _]. assert (R : (1 <= t <= 3)%Z) by (apply Bool.orb_true_iff in E as [E|E]; [apply Bool.orb_true_iff in E as [E|E]|]; apply Z.eqb_eq in E; lia).
    split; [tauto|]. intros K. elim (K R).
  - apply Bool.orb_false_iff in E as [E E3]. apply Bool.orb_false_iff in E as [E1 E2]. apply Z.eqb_neq in E1, E2, E3.
    split; [|intros _; exact N]. rewrite N. split; [lia|discriminate].
Qed.
Lemma vext_count t : (1 <= t <= 3)%Z ->
  exists p x, nth_error (vexts V (run p start)) 0 = Some x /\ x_type V x = t /\ List.length (x_details V x) < needed t.
Proof.
  intros H. exists [NewVext V 0 t true []], {| x_center := 0; x_type := t; x_add := true; x_details := [] |}.
  split; [|split; [reflexivity|]].
  - assert (T := new_vext show fixed digits start 0 [six; six; six] t true [] eq_refl).
    replace ((t =? 1) || (t =? 2) || (t =? 3))%Z%bool with true in T; [exact (proj2 T)|].
    symmetry. assert (t = 1 \/ t = 2 \/ t = 3)%Z as [-> | [-> | ->]] by lia; reflexivity.
  - cbn. unfold needed. destruct (t =? 1)%Z, (t =? 2)%Z; lia.
Qed.
End Final.
Lemma words_cases : word "0.04000" /\ ~ word "0 4" /\ ~ word "4#".
Proof.
  split; [apply word_check; [discriminate|cbn; repeat split; discriminate]|]. split; intros [_ H].
  - destruct (H "0" " "%char "4" eq_refl) as [K _]. discriminate K.
  - destruct (H "4" "#"%char "" eq_refl) as [_ K]. apply K. reflexivity.
Qed.

Lemma nothing_there {V} (show : V -> string) fixed digits s :
  (forall d i v o l, nth_error (doses V s) d = Some o -> nth_error (lists V s) (d_grid V o) = Some l -> List.length l <= i -> step V show fixed digits (SetGrid V d i v) s = (s, Some IndexError)) /\
  (forall d c path i v, nth_error (doses V s) d = None -> c = WriteDos V d path \/ c = SetGrid V d i v -> step V show fixed digits c s = (s, Some NameError)) /\
  (forall x path, nth_error (vexts V s) x = None -> step V show fixed digits (WriteVext V x path) s = (s, Some NameError)) /\
  (forall r i v, nth_error (lists V s) r = None -> step V show fixed digits (SetList V r i v) s = (s, Some NameError) /\
    (forall a m e n, step V show fixed digits (NewDos V a m e n (Some r)) s = (s, Some NameError)) /\ forall t b l, step V show fixed digits (NewVext V r t b l) s = (s, Some NameError)).
Proof.
  repeat split.
  - intros d i v o l A B H. cbn [step]. rewrite A. unfold set_list. rewrite B. rewrite (proj2 (Nat.ltb_ge _ _) H). reflexivity.
  - intros d c path i v A [->| ->]; cbn [step]; rewrite A; reflexivity.
  - intros x path A. cbn [step]. rewrite A. reflexivity.
  - cbn [step]. unfold set_list. rewrite H. reflexivity.
  - intros. cbn [step]. rewrite H. reflexivity.
  - intros. cbn [step]. rewrite H. reflexivity.
Qed.
