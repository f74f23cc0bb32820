From Coq Require Import NArith.
From Verif Require Import Text TextProofs MovementModel MovementSpec MovementProofs AtomConfigModel AtomConfigSpec.

(** * Decimal numbers *)
Lemma digit_value d : (d < 10)%N -> N.of_nat (nat_of_ascii (digit_char d) - 48) = d.
Proof.
  intros H. unfold digit_char. rewrite nat_ascii_embedding by lia. lia.
Qed.

Lemma digit_is_digit d : (d < 10)%N -> is_digit (digit_char d) = true.
Proof.
  intros H. unfold is_digit, digit_char. rewrite nat_ascii_embedding by lia.
  apply andb_true_iff. split; apply Nat.leb_le; lia.
Qed.

Lemma dec_go_value f : forall n acc, (n < 2 ^ N.of_nat f)%N ->
  digits_to_N_acc 0 (dec_go f n acc) = digits_to_N_acc n acc.
Proof.
  induction f as [|f IH]; intros n acc H.
  - cbn [dec_go digits_to_N_acc]. change (2 ^ N.of_nat 0)%N with 1%N in H.
    rewrite digit_value by lia. f_equal.
  - cbn [dec_go]. destruct (N.ltb_spec n 10).
    + cbn [digits_to_N_acc]. rewrite digit_value by lia. f_equal.
    + rewrite IH.
      * cbn [digits_to_N_acc]. pose proof (N.mod_lt n 10). rewrite digit_value by lia. f_equal.
        pose proof (N.div_mod n 10). lia.
      * rewrite Nat2N.inj_succ, N.pow_succ_r' in H. apply N.div_lt_upper_bound; lia.
Qed.

Lemma dec_value n : digits_to_N (dec n) = n.
Proof.
  unfold digits_to_N, dec. rewrite dec_go_value; [reflexivity|].
  rewrite N2Nat.id. apply N.size_gt.
Qed.

Lemma dec_go_digits f : forall n acc, (n < 2 ^ N.of_nat f)%N -> all_digits acc = true ->
  all_digits (dec_go f n acc) = true /\ dec_go f n acc <> "".
Proof.
  induction f as [|f IH]; intros n acc H Ha.
  - cbn [dec_go all_digits]. change (2 ^ N.of_nat 0)%N with 1%N in H.
    rewrite digit_is_digit by lia. split; [exact Ha|discriminate].
  - cbn [dec_go]. destruct (N.ltb_spec n 10).
    + cbn [all_digits]. rewrite digit_is_digit by lia. split; [exact Ha|discriminate].
    + apply IH.
      * rewrite Nat2N.inj_succ, N.pow_succ_r' in H. apply N.div_lt_upper_bound; lia.
      * cbn [all_digits]. pose proof (N.mod_lt n 10). rewrite digit_is_digit by lia. exact Ha.
Qed.

Lemma dec_digits n : all_digits (dec n) = true /\ dec n <> "".
Proof. unfold dec. apply dec_go_digits; [rewrite N2Nat.id; apply N.size_gt|reflexivity]. Qed.

Lemma parse_dec n : parse_int (dec n) = Ok n.
Proof.
  unfold parse_int. destruct (dec_digits n) as [H1 H2]. rewrite H1.
  destruct (String.eqb_spec (dec n) ""); [contradiction|]. cbn. rewrite dec_value. reflexivity.
Qed.

(** * Characters *)
Lemma in_string_split c s : in_string c s <-> exists a b, s = a +++ String c b.
Proof.
  induction s as [|x s IH]; cbn [in_string].
  - split; [contradiction|]. intros [[|] [b H]]; discriminate.
  - rewrite IH. split.
    + intros [->|[a [b ->]]]; [exists "", s; reflexivity|exists (String x a), b; reflexivity].
    + intros [[|y a] [b H]]; cbn in H; injection H as -> ->; [left; reflexivity|right; eauto].
Qed.

Lemma in_string_app c a b : in_string c (a +++ b) <-> in_string c a \/ in_string c b.
Proof. induction a as [|x a IH]; cbn [String.append in_string]; [tauto|]. rewrite IH. tauto. Qed.

Lemma no_char_contains c p s : in_string c p -> ~ in_string c s -> contains p s = false.
Proof.
  intros Hp Hs. destruct (contains p s) eqn:E; [|reflexivity].
  apply contains_spec in E as [a [b ->]]. exfalso. apply Hs. rewrite !in_string_app. auto.
Qed.

Lemma in_upper c s : in_string c (upper s) -> exists d, in_string d s /\ upper_char d = c.
Proof.
  induction s as [|x s IH]; cbn [upper in_string]; [contradiction|].
  intros [H|H]; [eauto|]. destruct (IH H) as [d [Hd Hc]]. eauto.
Qed.

(** Characters of rows: blanks, digits and number characters. *)
Definition plainb (c : ascii) : bool :=
  let u := upper_char c in
  negb (Ascii.eqb u "L"%char || Ascii.eqb u "P"%char || Ascii.eqb u "G"%char).
Definition plain (s : string) : Prop := forall c, in_string c s -> plainb c = true.

Lemma plain_app a b : plain a -> plain b -> plain (a +++ b).
Proof. intros Ha Hb c H. apply in_string_app in H as [H|H]; auto. Qed.

Lemma plain_not_in x s : plain s -> (x = "L"%char \/ x = "P"%char \/ x = "G"%char) -> ~ in_string x (upper s).
Proof.
  intros Hs Hx H. apply in_upper in H as [d [Hd Hc]]. specialize (Hs d Hd). unfold plainb in Hs.
  rewrite Hc in Hs. destruct Hx as [->|[->| ->]]; cbn in Hs; discriminate.
Qed.

Lemma plain_kw kw s : (kw = "LATTICE" \/ kw = "POSITION" \/ kw = "MAGNETIC") ->
  plain s -> contains kw (upper s) = false.
Proof.
  intros [->|[->| ->]] Hs.
  - apply (no_char_contains "L"); [cbn; auto|]. apply plain_not_in; auto.
  - apply (no_char_contains "P"); [cbn; auto|]. apply plain_not_in; auto.
  - apply (no_char_contains "G"); [cbn; auto 10|]. apply plain_not_in; auto.
Qed.

Fixpoint checkb (P : ascii -> bool) (s : string) : bool :=
  match s with "" => true | String c r => P c && checkb P r end.
Lemma checkb_spec P s : checkb P s = true -> forall c, in_string c s -> P c = true.
Proof.
  induction s as [|x s IH]; cbn; [contradiction|]. intros H c [<-|Hc]; apply andb_true_iff in H as [H1 H2]; auto.
Qed.

Lemma number_char_ok c : in_string c number_chars -> plainb c = true /\ is_space c = false.
Proof.
  intros H. pose proof (checkb_spec (fun c => plainb c && negb (is_space c)) number_chars eq_refl c H) as Hc.
  apply andb_true_iff in Hc as [H1 H2]. apply negb_true_iff in H2. auto.
Qed.

Lemma number_plain t : number_text t -> plain t.
Proof. intros [_ H] c Hc. apply number_char_ok. auto. Qed.

Lemma in_all_chars (P : ascii -> Prop) s : (forall c, in_string c s -> P c) -> all_chars P s.
Proof. induction s as [|x s IH]; cbn; intros H; [exact I|]. split; auto. Qed.

Lemma number_tok t : number_text t -> all_chars (fun c => is_space c = false) t /\ t <> "".
Proof. intros [Hne H]. split; [|exact Hne]. apply in_all_chars. intros c Hc. apply number_char_ok. auto. Qed.

Lemma dec_number n : number_text (dec n).
Proof.
  destruct (dec_digits n) as [H1 H2]. split; [exact H2|]. intros c Hc.
  assert (Hd : is_digit c = true).
  { clear H2. induction (dec n) as [|x s IH]; cbn in *; [contradiction|].
    apply andb_true_iff in H1 as [Hx Hs]. destruct Hc as [<-|Hc]; auto. }
  revert Hd. clear. destruct c as [[] [] [] [] [] [] [] []]; cbn; intros H; try discriminate; auto 20.
Qed.

Lemma blanks_chars n : all_chars (fun c => is_space c = true) (blanks n).
Proof. induction n as [|n IH]; cbn; auto. Qed.

Lemma blanks_in c n : in_string c (blanks n) -> c = " "%char.
Proof. induction n as [|n IH]; cbn; [contradiction|]. intros [<-|H]; auto. Qed.

Lemma plain_blanks n : plain (blanks n).
Proof. intros c H. apply blanks_in in H as ->. reflexivity. Qed.

Lemma plain_ljust w t : plain t -> plain (ljust w t).
Proof. intros H. apply plain_app; [exact H|apply plain_blanks]. Qed.

(** No line terminator in rows. *)
Lemma no_nl_in s : (forall c, in_string c s -> c <> nl) -> no_nl s.
Proof. induction s as [|x s IH]; cbn; intros H; [exact I|]. split; auto. Qed.

Lemma no_nl_number t : number_text t -> no_nl t.
Proof.
  intros [_ H]. apply no_nl_in. intros c Hc ->. specialize (H _ Hc). apply number_char_ok in H as [_ H]. discriminate.
Qed.
Lemma no_nl_blanks n : no_nl (blanks n).
Proof. apply no_nl_in. intros c Hc ->. apply blanks_in in Hc. discriminate. Qed.
Lemma no_nl_ljust w t : number_text t -> no_nl (ljust w t).
Proof. intros H. apply no_nl_app. split; [apply no_nl_number; exact H|apply no_nl_blanks]. Qed.

(** Tokenising padded fields. *)
Lemma split_field w t rest : number_text t -> (exists c r, rest = String c r /\ is_space c = true) ->
  split_ws (ljust w t +++ rest) = t :: split_ws rest.
Proof.
  intros Ht [c [r [-> Hc]]]. destruct (number_tok t Ht) as [H1 H2]. unfold ljust.
  rewrite append_assoc. destruct (blanks (w - String.length t)) as [|b bs] eqn:E.
  - cbn [String.append]. rewrite split_ws_token_cons by assumption.
    rewrite !split_ws_flush. rewrite split_ws_go_space by exact Hc. reflexivity.
  - assert (Hb : all_chars (fun c => is_space c = true) (String b bs)) by (rewrite <- E; apply blanks_chars).
    destruct Hb as [Hb Hbs]. cbn [String.append]. rewrite split_ws_token_cons by assumption.
    f_equal. rewrite split_ws_blank by exact Hbs. reflexivity.
Qed.

Lemma split_lead b rest : all_chars (fun c => is_space c = true) b -> split_ws (b +++ rest) = split_ws rest.
Proof. apply split_ws_blank. Qed.

Section RoundTrip.
Variables (F : Type) (fmtE fmtf fmt2 : F -> string) (pfloat : string -> result F) (fzero : F).
Variables (rE rf r2 : F -> F).
Hypothesis HE : forall x, number_text (fmtE x) /\ pfloat (fmtE x) = Ok (rE x).
Hypothesis Hf : forall x, number_text (fmtf x) /\ pfloat (fmtf x) = Ok (rf x).
Hypothesis H2 : forall x, number_text (fmt2 x) /\ pfloat (fmt2 x) = Ok (r2 x).

Ltac rest_space := eexists; eexists; split; [reflexivity|reflexivity].

Lemma lattice_tokens a b c : split_ws (lattice_line F fmtE (a, b, c)) = [fmtE a; fmtE b; fmtE c].
Proof.
  unfold lattice_line, endl. rewrite split_lead by (cbn; auto).
  rewrite split_field by (apply HE || rest_space). rewrite split_lead by (cbn; auto).
  rewrite split_field by (apply HE || rest_space). rewrite split_lead by (cbn; auto).
  rewrite split_field by (apply HE || rest_space). reflexivity.
Qed.

Lemma site_tokens s : split_ws (site_line F fmtf s) =
  [dec (st_z F s); fmtf (st_x F s); fmtf (st_y F s); fmtf (st_w F s); "1"; "1"; "1"].
Proof.
  unfold site_line, endl. rewrite split_lead by (cbn; auto).
  rewrite split_field by (apply dec_number || rest_space). rewrite split_lead by (cbn; auto 20).
  rewrite split_field by (apply Hf || rest_space). rewrite split_lead by (cbn; auto 20).
  rewrite split_field by (apply Hf || rest_space). rewrite split_lead by (cbn; auto 20).
  rewrite split_field by (apply Hf || rest_space). reflexivity.
Qed.

Lemma magmom_tokens s m : split_ws (magmom_line F fmt2 s m) = [dec (st_z F s); fmt2 m].
Proof.
  unfold magmom_line, endl. rewrite split_lead by (cbn; auto).
  rewrite split_field by (apply dec_number || rest_space). rewrite split_lead by (cbn; auto).
  replace (fmt2 m +++ String nl "") with (ljust 0 (fmt2 m) +++ String nl "") by (unfold ljust; cbn; rewrite append_empty_r; reflexivity).
  rewrite split_field by (apply H2 || rest_space). reflexivity.
Qed.

Definition head_line (n : nat) : string := "  " +++ dec (N.of_nat n) +++ " atoms" +++ endl.
Lemma head_tokens n : split_ws (head_line n) = [dec (N.of_nat n); "atoms"].
Proof.
  unfold head_line, endl. rewrite split_lead by (cbn; auto).
  replace (dec (N.of_nat n) +++ " atoms" +++ String nl "") with (ljust 0 (dec (N.of_nat n)) +++ " atoms" +++ String nl "")
    by (unfold ljust; cbn; rewrite append_empty_r; reflexivity).
  rewrite split_field by (apply dec_number || rest_space). reflexivity.
Qed.

Lemma plain_of s : checkb plainb s = true -> plain s.
Proof. intros H c Hc. exact (checkb_spec plainb s H c Hc). Qed.

Ltac num := first [apply HE|apply Hf|apply H2|apply dec_number].
Ltac plain_tac :=
  lazymatch goal with
  | |- plain (String.append _ _) => apply plain_app; plain_tac
  | |- plain (ljust _ _) => apply plain_ljust; apply number_plain; num
  | |- _ => first [apply plain_of; reflexivity | apply number_plain; num]
  end.

Lemma plain_lattice r : plain (lattice_line F fmtE r).
Proof. destruct r as [[a b] c]. unfold lattice_line. plain_tac. Qed.
Lemma plain_site s : plain (site_line F fmtf s).
Proof. unfold site_line. plain_tac. Qed.
Lemma plain_mag s m : plain (magmom_line F fmt2 s m).
Proof. unfold magmom_line. plain_tac. Qed.
Lemma plain_head n : plain (head_line n).
Proof. unfold head_line. plain_tac. Qed.

Lemma full_of x : no_nl x -> line_full (x +++ endl).
Proof. intros H. exists x. auto. Qed.

Ltac nonl :=
  lazymatch goal with
  | |- no_nl (String.append _ _) => apply no_nl_app; split; nonl
  | |- no_nl (ljust _ _) => apply no_nl_ljust; num
  | |- _ => first [cbn; repeat split; discriminate | apply no_nl_number; num]
  end.

Lemma full_lattice r : line_full (lattice_line F fmtE r).
Proof. destruct r as [[a b] c]. unfold lattice_line. rewrite <- !append_assoc. apply full_of. rewrite !append_assoc. nonl. Qed.
Lemma full_site s : line_full (site_line F fmtf s).
Proof. unfold site_line. rewrite <- !append_assoc. apply full_of. rewrite !append_assoc. nonl. Qed.
Lemma full_mag s m : line_full (magmom_line F fmt2 s m).
Proof. unfold magmom_line. rewrite <- !append_assoc. apply full_of. rewrite !append_assoc. nonl. Qed.
Lemma full_head n : line_full (head_line n).
Proof. unfold head_line. rewrite <- !append_assoc. apply full_of. rewrite !append_assoc. nonl. Qed.

Lemma wf_full ls : Forall line_full ls -> wf_lines ls.
Proof. induction 1; constructor; assumption. Qed.

Lemma magmom_lines_spec ss ms : length ms = length ss ->
  magmom_lines F fmt2 ss ms = Ok (map (fun p => magmom_line F fmt2 (fst p) (snd p)) (combine ss ms)).
Proof.
  revert ms; induction ss as [|s ss IH]; intros [|m ms] H; cbn in *; try discriminate; [reflexivity|].
  rewrite IH by lia. reflexivity.
Qed.

Lemma locate_plain kw : (kw = "LATTICE" \/ kw = "POSITION" \/ kw = "MAGNETIC") -> forall ls n,
  Forall plain ls -> locate_lines_from n kw ls = [].
Proof.
  intros Hk. induction ls as [|l ls IH]; intros n H; cbn [locate_lines_from]; [reflexivity|].
  inversion H; subst. rewrite plain_kw by assumption. apply IH. assumption.
Qed.

Lemma locate_app kw l1 l2 n :
  locate_lines_from n kw (l1 ++ l2) = locate_lines_from n kw l1 ++ locate_lines_from (n + length l1) kw l2.
Proof.
  revert n; induction l1 as [|l l1 IH]; intros n; cbn [app locate_lines_from length].
  - rewrite Nat.add_0_r. reflexivity.
  - rewrite IH, Nat.add_succ_r. destruct (contains kw (upper l)); reflexivity.
Qed.

Lemma mapM_ok {A B} (f : A -> result B) g l : (forall x, f x = Ok (g x)) -> mapM f l = Ok (map g l).
Proof. intros H. apply mapM_all. intros x _. apply H. Qed.

Lemma mapM_map {A B C} (f : B -> result C) (h : A -> B) l : mapM f (map h l) = mapM (fun x => f (h x)) l.
Proof. induction l as [|x l IH]; cbn; [reflexivity|]. rewrite IH. reflexivity. Qed.

Definition pos_line : string := "Position (normalized), move_x, move_y, move_z" +++ endl.
Definition lat_title : string := "Lattice vector (Angstrom)" +++ endl.
Definition mag_title : string := "Magnetic" +++ endl.

Definition triple (r : F * F * F) : list F := let '(a, b, c) := r in [a; b; c].

Theorem round_trip c mag file :
  (mag = true -> length (magmom F c) = length (sites F c)) ->
  to_text F fmtE fmtf fmt2 c mag = Ok file ->
  exists x, ac_open F pfloat (file_lines file) file = Ok x /\
    x_num F x = N.of_nat (length (sites F c)) /\
    x_types F x = map (st_z F) (sites F c) /\
    x_basis F x = map rE (triple (fst (fst (lat F c))) ++ triple (snd (fst (lat F c))) ++ triple (snd (lat F c))) /\
    x_coords F x = flat_map (fun s => [rf (st_x F s); rf (st_y F s); rf (st_w F s)]) (sites F c) /\
    ac_get_magmoms F pfloat fzero (x_num F x) file =
      (if mag then map r2 (magmom F c) else repeat fzero (length (sites F c))).
Proof.
  intros Hmag Hto. destruct c as [[[r0 r1] r2'] ss ms]. cbn [lat sites magmom fst snd] in *.
  unfold to_text in Hto; cbn [lat sites magmom] in Hto.
  set (tail := if mag then mag_title :: map (fun p => magmom_line F fmt2 (fst p) (snd p)) (combine ss ms) else []).
  assert (Hl : file = concat_str ([head_line (length ss); lat_title; lattice_line F fmtE r0; lattice_line F fmtE r1; lattice_line F fmtE r2'; pos_line]
                 ++ map (site_line F fmtf) ss ++ tail)).
  { unfold tail. destruct mag.
    - rewrite magmom_lines_spec in Hto by auto. cbn [bind] in Hto. injection Hto as <-. reflexivity.
    - cbn [bind] in Hto. injection Hto as <-. reflexivity. }
  clear Hto.
  assert (Hlines : file_lines file = [head_line (length ss); lat_title; lattice_line F fmtE r0; lattice_line F fmtE r1; lattice_line F fmtE r2'; pos_line]
                 ++ map (site_line F fmtf) ss ++ tail).
  { rewrite Hl. apply file_lines_concat. apply wf_full. rewrite !Forall_app. split; [|split].
    - repeat constructor; try apply full_head; try apply full_lattice; apply full_of; cbn; repeat split; discriminate.
    - apply Forall_map. apply Forall_forall. intros s _. apply full_site.
    - unfold tail. destruct mag; [|constructor]. constructor.
      + apply full_of. cbn; repeat split; discriminate.
      + apply Forall_map. apply Forall_forall. intros s _. apply full_mag. }
  assert (Psites : Forall plain (map (site_line F fmtf) ss)).
  { apply Forall_map. apply Forall_forall. intros s _. apply plain_site. }
  assert (Hlat : exists rest, locate_lines "LATTICE" file = 2 :: rest).
  { unfold locate_lines. rewrite Hlines. cbn [app locate_lines_from].
    rewrite (plain_kw "LATTICE" (head_line (length ss))) by (auto || apply plain_head).
    change (contains "LATTICE" (upper lat_title)) with true. cbv iota. eexists. reflexivity. }
  assert (Hpos : exists rest, locate_lines "POSITION" file = 6 :: rest).
  { unfold locate_lines. rewrite Hlines. cbn [app locate_lines_from].
    rewrite (plain_kw "POSITION" (head_line (length ss))) by (auto || apply plain_head).
    change (contains "POSITION" (upper lat_title)) with false.
    rewrite !(plain_kw "POSITION") by (auto || apply plain_lattice).
    change (contains "POSITION" (upper pos_line)) with true. cbv iota. eexists. reflexivity. }
  destruct Hlat as [lrest Hlat]. destruct Hpos as [prest Hpos].
  assert (Hslice : slice 6 (6 + N.to_nat (N.of_nat (length ss))) (file_lines file) = map (site_line F fmtf) ss).
  { rewrite Hlines, Nat2N.id. unfold slice. replace (6 + length ss - 6) with (length ss) by lia. cbn [app skipn].
    rewrite firstn_app, map_length, Nat.sub_diag, firstn_O, app_nil_r. rewrite <- (map_length (site_line F fmtf) ss). apply firstn_all. }
  assert (Hn : ac_get_num_atoms (file_lines file) = Ok (N.of_nat (length ss))).
  { unfold ac_get_num_atoms, getline. rewrite Hlines. cbn [app nth Nat.sub]. rewrite head_tokens. cbn [get nth_error bind]. apply parse_dec. }
  assert (Hb : ac_get_basis F pfloat (file_lines file) file = Ok (map rE (triple r0 ++ triple r1 ++ triple r2'))).
  { unfold ac_get_basis. rewrite Hlat. cbn [get nth_error bind]. unfold getline. rewrite Hlines. cbn [app nth Nat.sub Nat.add mapM].
    destruct r0 as [[a0 b0] c0], r1 as [[a1 b1] c1], r2' as [[a2 b2] c2]. rewrite !lattice_tokens. cbn [firstn].
    assert (H3 : forall a b c, mapM pfloat [fmtE a; fmtE b; fmtE c] = Ok [rE a; rE b; rE c]).
    { intros a b c. cbn [mapM]. rewrite !(proj2 (HE _)). reflexivity. }
    rewrite !H3. reflexivity. }
  assert (Ht : ac_get_types (N.of_nat (length ss)) file = Ok (map (st_z F) ss)).
  { unfold ac_get_types. rewrite Hpos. cbn [get nth_error bind]. rewrite Hslice, mapM_map.
    apply mapM_ok. intros s. rewrite site_tokens. cbn [get nth_error bind]. apply parse_dec. }
  assert (Hc : ac_get_coords F pfloat (N.of_nat (length ss)) file =
               Ok (flat_map (fun s => [rf (st_x F s); rf (st_y F s); rf (st_w F s)]) ss)).
  { unfold ac_get_coords. rewrite Hpos. cbn [get nth_error bind]. rewrite Hslice, mapM_map.
    rewrite (mapM_ok _ (fun s => [rf (st_x F s); rf (st_y F s); rf (st_w F s)])).
    - cbn [bind]. rewrite flat_map_concat_map. destruct ss as [|s0 ss0]; [reflexivity|]. cbn [map].
      replace (forallb _ _) with true; [reflexivity|]. symmetry. apply forallb_forall.
      intros x Hx. apply in_map_iff in Hx as [s [<- _]]. reflexivity.
    - intros s. rewrite site_tokens. unfold slice. cbn [skipn firstn Nat.sub mapM]. rewrite !(proj2 (Hf _)). reflexivity. }
  eexists. unfold ac_open. rewrite Hn. cbn [bind]. rewrite Hb. cbn [bind]. rewrite Ht. cbn [bind]. rewrite Hc. cbn [bind].
  split; [reflexivity|]. cbn [x_num x_types x_basis x_coords]. repeat split.
  unfold ac_get_magmoms. 
  assert (Hloc : locate_lines "MAGNETIC" file = if mag then [7 + length ss] else []).
  { unfold locate_lines. rewrite Hlines. rewrite locate_app, locate_app. cbn [locate_lines_from].
    rewrite (plain_kw "MAGNETIC" (head_line (length ss))) by (auto || apply plain_head).
    change (contains "MAGNETIC" (upper lat_title)) with false.
    rewrite !(plain_kw "MAGNETIC" (lattice_line F fmtE _)) by (auto || apply plain_lattice).
    change (contains "MAGNETIC" (upper pos_line)) with false. cbv iota.
    rewrite (locate_plain "MAGNETIC") by auto. cbn [app length]. rewrite map_length.
    unfold tail. destruct mag; [|reflexivity]. cbn [locate_lines_from].
    change (contains "MAGNETIC" (upper mag_title)) with true. cbv iota.
    rewrite (locate_plain "MAGNETIC"); [reflexivity|auto|].
    apply Forall_map. apply Forall_forall. intros p _. apply plain_mag. }
  rewrite Hloc. destruct mag; [|cbn; rewrite Nat2N.id; reflexivity].
  cbn [rev app]. specialize (Hmag eq_refl).
  assert (Hms : slice (7 + length ss) (7 + length ss + N.to_nat (N.of_nat (length ss))) (file_lines file) =
                map (fun p => magmom_line F fmt2 (fst p) (snd p)) (combine ss ms)).
  { rewrite Hlines, Nat2N.id. unfold slice. replace (7 + length ss + length ss - (7 + length ss)) with (length ss) by lia.
    unfold tail. rewrite app_assoc.
    assert (Hsk : forall A (l : list A) x r n, n = S (length l) -> skipn n (l ++ x :: r) = r).
    { intros A l x r n ->. clear. induction l; cbn; auto. }
    rewrite Hsk by (rewrite app_length, map_length; reflexivity).
    replace (length ss) with (length (map (fun p => magmom_line F fmt2 (fst p) (snd p)) (combine ss ms))).
    - apply firstn_all.
    - rewrite map_length, combine_length. lia. }
  rewrite Hms, mapM_map.
  rewrite (mapM_ok _ (fun p => r2 (snd p))).
  - rewrite <- (map_map snd r2). f_equal. clear -Hmag. revert ms Hmag; induction ss as [|s ss IH]; intros [|m ms] H; cbn in *; try discriminate; [reflexivity|].
    f_equal. apply IH. lia.
  - intros [s m]. cbn [fst snd]. rewrite magmom_tokens. cbn [rev app]. apply H2.
Qed.
End RoundTrip.

(** *** The block of moments *)
Definition heading (kw line : string) : Prop := contains kw (upper line) = true.
Lemma locate_none kw ls n : Forall (fun l => ~ heading kw l) ls -> locate_lines_from n kw ls = [].
Proof.
  revert n; induction ls as [|l ls IH]; intros n H; cbn [locate_lines_from]; [reflexivity|]. inversion H as [|? ? Hl Hr]; subst. unfold heading in Hl. destruct (contains kw (upper l)); [destruct Hl; reflexivity|]. apply IH. exact Hr.
Qed.
Lemma last_block (F : Type) (pfloat : string -> result F) fzero n file pre h rows post : file_lines file = pre ++ h :: rows ++ post -> length rows = N.to_nat n ->
  heading "MAGNETIC" h -> Forall (fun l => ~ heading "MAGNETIC" l) (rows ++ post) ->
  (forall vs, Forall2 (fun row v => exists ts t, split_ws row = ts ++ [t] /\ pfloat t = Ok v) rows vs -> ac_get_magmoms F pfloat fzero n file = vs) /\
  ((exists row, In row rows /\ forall ts t v, split_ws row = ts ++ [t] -> pfloat t <> Ok v) -> ac_get_magmoms F pfloat fzero n file = repeat fzero (N.to_nat n)).
Proof.
  intros E L Hh Hn.
  assert (X : ac_get_magmoms F pfloat fzero n file = match mapM (fun row => match rev (split_ws row) with [] => Err IndexError | t :: _ => pfloat t end) rows with Ok l => l | Err _ => repeat fzero (N.to_nat n) end).
  { unfold ac_get_magmoms, locate_lines. rewrite E. rewrite locate_app. cbn [locate_lines_from]. unfold heading in Hh. rewrite Hh, (locate_none _ _ _ Hn). rewrite rev_app_distr. cbn [rev app].
    assert (SL : slice (S (0 + length pre)) (S (0 + length pre) + N.to_nat n) (pre ++ h :: rows ++ post) = rows).
    { unfold slice. replace (S (0 + length pre) + N.to_nat n - S (0 + length pre)) with (length rows) by lia. change (h :: rows ++ post) with ([h] ++ rows ++ post). rewrite app_assoc. rewrite skipn_app.
      rewrite skipn_all2 by (rewrite app_length; cbn; lia). rewrite app_length. cbn [length app]. replace (S (0 + length pre) - (length pre + 1)) with 0 by lia. cbn [skipn app]. rewrite firstn_app, firstn_all, Nat.sub_diag. cbn. apply app_nil_r. }
    rewrite SL. reflexivity. }
  rewrite X. clear X E Hn Hh. split.
  - intros vs F2. assert (M : mapM (fun row => match rev (split_ws row) with [] => Err IndexError | t :: _ => pfloat t end) rows = Ok vs).
    { clear L. induction F2 as [|row v rows vs (ts & t & Es & Et) F2 IH]; [reflexivity|]. cbn [mapM]. rewrite Es, rev_app_distr. cbn [rev app]. rewrite Et. cbn [bind]. rewrite IH. reflexivity. }
    rewrite M. reflexivity.
  - intros (row & I0 & Hb). assert (M : exists e, mapM (fun row => match rev (split_ws row) with [] => Err IndexError | t :: _ => pfloat t end) rows = Err e).
    { clear L. induction rows as [|r rows IH]; [destruct I0|]. cbn [mapM]. destruct I0 as [->|I0].
      - destruct (rev (split_ws row)) as [|t rr] eqn:Er; [eexists; reflexivity|]. assert (Es : split_ws row = rev rr ++ [t]) by (rewrite <- (rev_involutive (split_ws row)), Er; reflexivity).
        destruct (pfloat t) as [v|e] eqn:Ep; [exfalso; exact (Hb _ _ v Es Ep)|]. eexists. reflexivity.
      - destruct (IH I0) as (e & ->). destruct (match rev (split_ws r) with [] => Err IndexError | t :: _ => pfloat t end); eexists; reflexivity. }
    destruct M as (e & ->). reflexivity.
Qed.
