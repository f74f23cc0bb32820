(** Decimal numbers, padded numbers and formula strings determine their numbers. *)
From Coq Require Import String Ascii DecimalString DecimalNat Decimal.
From Verif Require Import Base ElementModel ElementProofs DataModel.

Lemma sapp_assoc (a b c : string) : ((a ++ b) ++ c = a ++ (b ++ c))%string.
Proof. induction a as [|x a IH]; cbn; [reflexivity|now rewrite IH]. Qed.
Lemma sapp_nil (a : string) : (a ++ "" = a)%string.
Proof. induction a as [|x a IH]; cbn; [reflexivity|now rewrite IH]. Qed.
Lemma sapp_inv (a b c : string) : (a ++ b = a ++ c)%string -> b = c.
Proof. induction a as [|x a IH]; cbn; [auto|]. intros H. apply IH. congruence. Qed.

(** *** Padding *)
Definition parse (s : string) : option nat := option_map Nat.of_uint (NilZero.uint_of_string s).

Lemma to_uint_nonnil n : Nat.to_uint n <> Nil.
Proof.
  intros H. pose proof (Unsigned.of_to n) as E. rewrite H in E. cbn in E. subst. discriminate.
Qed.

Lemma parse_dec n : parse (dec n) = Some n.
Proof. unfold parse, dec. rewrite NilZero.usu by apply to_uint_nonnil. cbn. f_equal. apply Unsigned.of_to. Qed.

Lemma dec_inj a b : dec a = dec b -> a = b.
Proof. intros H. apply (f_equal parse) in H. rewrite !parse_dec in H. congruence. Qed.

Lemma parse_zero s : s <> EmptyString -> parse (String "0" s) = parse s.
Proof.
  intros H. unfold parse, NilZero.uint_of_string. destruct s as [|c s]; [contradiction|].
  change (NilEmpty.uint_of_string (String "0" (String c s))) with (option_map D0 (NilEmpty.uint_of_string (String c s))).
  destruct (NilEmpty.uint_of_string (String c s)); reflexivity.
Qed.

Lemma dec_nonempty n : dec n <> EmptyString.
Proof. intros H. pose proof (parse_dec n) as E. rewrite H in E. discriminate. Qed.

Lemma zeros_nonempty k s : s <> EmptyString -> (zeros k ++ s)%string <> EmptyString.
Proof. destruct k; cbn; [auto|discriminate]. Qed.

Lemma parse_zeros k s : s <> EmptyString -> parse (zeros k ++ s) = parse s.
Proof.
  intros H. induction k as [|k IH]; [reflexivity|]. cbn [zeros String.append].
  rewrite parse_zero by now apply zeros_nonempty. exact IH.
Qed.

Lemma pad3_inj a b : pad3 a = pad3 b -> a = b.
Proof.
  intros H. apply (f_equal parse) in H. unfold pad3 in H. rewrite !parse_zeros, !parse_dec in H by apply dec_nonempty. congruence.
Qed.

(** *** Formulas *)
Definition digit (c : ascii) : bool := (48 <=? nat_of_ascii c) && (nat_of_ascii c <=? 57).
Fixpoint all_digits (s : string) : bool := match s with EmptyString => true | String c r => digit c && all_digits r end.
Definition no_digit_first (s : string) : bool := match s with EmptyString => true | String c _ => negb (digit c) end.

Lemma digits_uint d : all_digits (NilEmpty.string_of_uint d) = true.
Proof. induction d; cbn; auto. Qed.
Lemma digits_dec n : all_digits (dec n) = true.
Proof.
  unfold dec, NilZero.string_of_uint. pose proof (to_uint_nonnil n). destruct (Nat.to_uint n) eqn:E; [contradiction|..]; rewrite <- E; apply digits_uint.
Qed.

Lemma digits_split a b r r' : all_digits a = true -> all_digits b = true -> no_digit_first r = true -> no_digit_first r' = true ->
  (a ++ r = b ++ r')%string -> a = b /\ r = r'.
Proof.
  revert b. induction a as [|c a IH]; intros b Ha Hb Hr Hr' E.
  - destruct b as [|c b]; [auto|]. cbn in *. subst. cbn in Hr. apply andb_prop in Hb. destruct Hb as [Hb _]. rewrite Hb in Hr. discriminate.
  - cbn in Ha. apply andb_prop in Ha. destruct Ha as [Hc Ha]. destruct b as [|c' b].
    + cbn in E. subst. cbn in Hr'. rewrite Hc in Hr'. discriminate.
    + cbn in E, Hb. apply andb_prop in Hb. destruct Hb as [_ Hb]. assert (c = c') by congruence. subst.
      destruct (IH b Ha Hb Hr Hr') as [-> ->]; [congruence|auto].
Qed.

Fixpoint spell (d : list (string * nat)) : string :=
  match d with [] => EmptyString | p :: r => (fst p ++ dec (snd p) ++ spell r)%string end.

Lemma formula_spell d : formula_of d = spell d.
Proof.
  assert (forall s, fold_left (fun s p => (s ++ (fst p ++ dec (snd p)))%string) d s = (s ++ spell d)%string) as G.
  { induction d as [|p d IH]; intros s; cbn; [now rewrite sapp_nil|]. rewrite IH, !sapp_assoc. reflexivity. }
  apply G.
Qed.

Lemma upper_not_digit s : starts_upper s = true -> exists c r, s = String c r /\ digit c = false.
Proof.
  destruct s as [|c r]; [discriminate|]. unfold starts_upper. intros H. exists c, r. split; [reflexivity|]. unfold digit.
  apply andb_prop in H. destruct H as [H _]. apply Nat.leb_le in H. apply andb_false_intro2. apply Nat.leb_gt. lia.
Qed.

Lemma spell_first d : Forall (fun p => starts_upper (fst p) = true) d -> no_digit_first (spell d) = true.
Proof.
  destruct d as [|p d]; [reflexivity|]. intros H. inversion H; subst. destruct (upper_not_digit _ H2) as (c & r & E & D).
  cbn. rewrite E. cbn. now rewrite D.
Qed.

(** With the same elements in the same order, equal formulas mean equal counts. *)
Lemma formula_inj d : forall d', map fst d = map fst d' -> Forall (fun p => starts_upper (fst p) = true) d ->
  formula_of d = formula_of d' -> d = d'.
Proof.
  induction d as [|[k v] d IH]; intros [|[k' v'] d'] K U E; try discriminate; [reflexivity|].
  cbn in K. assert (k' = k) by congruence. subst. assert (K' : map fst d = map fst d') by congruence.
  inversion U; subst. rewrite !formula_spell in E. cbn in E. apply sapp_inv in E. apply digits_split in E.
  - destruct E as [E1 E2]. apply dec_inj in E1. subst. f_equal. apply IH; auto. now rewrite !formula_spell.
  - apply digits_dec.
  - apply digits_dec.
  - now apply spell_first.
  - apply spell_first. clear - K' H2. revert d' K'. induction d as [|p d IH]; intros [|q d'] K; try discriminate; constructor.
    + inversion H2; subst. cbn in K. congruence.
    + inversion H2; subst. apply IH; auto. cbn in K. congruence.
Qed.
