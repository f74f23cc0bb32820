(** Proofs about data files that are read and saved one at a time. *)
From Coq Require Import String Ascii ZifyBool ZifyNat Sorted.
From Verif Require Import Base ElementModel ElementProofs DataModel DataSpec DataText DataProofs DataParts DataMerge DataGroups SoloSpec.

(** ** Formulas of unrelated element lists *)

(** Whether one text may begin the other with a digit following. *)
Fixpoint compat (a b : string) : bool :=
  match a, b with
  | EmptyString, EmptyString => true
  | EmptyString, String c _ | String c _, EmptyString => digit c
  | String c a', String d b' => if Ascii.eqb c d then compat a' b' else false
  end.
Definition digit_first (s : string) : Prop := exists c r, s = String c r /\ digit c = true.

Lemma compat_eq a : forall b x y, digit_first x -> digit_first y -> (a ++ x = b ++ y)%string -> compat a b = true.
Proof.
  induction a as [|c a IH]; intros [|d b] x y X Y E; cbn in *; [reflexivity|..].
  - destruct X as (c & r & -> & D). congruence.
  - destruct Y as (d & r & -> & D). congruence.
  - assert (c = d) by congruence. subst d. rewrite Ascii.eqb_refl. apply (IH b x y X Y). congruence.
Qed.

Lemma symbols_decode : forallb (fun p => forallb (fun q => negb (compat (snd p) (snd q)) || String.eqb (snd p) (snd q)) atomic_number2specie) atomic_number2specie = true.
Proof. vm_compute. reflexivity. Qed.

Lemma sym_compat a b : known a -> known b -> compat (sym a) (sym b) = true -> a = b.
Proof.
  intros A B C. apply sym_inj; [exact A|exact B|]. pose proof symbols_decode as D. rewrite forallb_forall in D.
  assert (I : In (a, sym a) atomic_number2specie) by (apply sym_ok in A; apply dget_in in A; [exact A|apply Z.eqb_eq]).
  assert (J : In (b, sym b) atomic_number2specie) by (apply sym_ok in B; apply dget_in in B; [exact B|apply Z.eqb_eq]).
  specialize (D _ I). rewrite forallb_forall in D. specialize (D _ J). cbn [snd] in D. rewrite C in D. cbn in D. now apply String.eqb_eq in D.
Qed.

Lemma dec_first n r : digit_first (dec n ++ r).
Proof.
  pose proof (digits_dec n) as D. pose proof (dec_nonempty n) as N. destruct (dec n) as [|c t]; [contradiction|].
  cbn in D. apply andb_prop in D. destruct D as [D _]. exists c, (t ++ r)%string. split; [reflexivity|exact D].
Qed.

Lemma spell_inj (f g : Z -> nat) : forall l l', Forall known l -> Forall known l' ->
  spell (map (fun a => (sym a, f a)) l) = spell (map (fun a => (sym a, g a)) l') -> l = l' /\ forall a, In a l -> f a = g a.
Proof.
  assert (U : forall h l, Forall known l -> no_digit_first (spell (map (fun a => (sym a, h a)) l)) = true).
  { intros h l K. apply spell_first. apply Forall_forall. intros p Hp. apply in_map_iff in Hp. destruct Hp as (a & <- & Ha). cbn.
    eapply symbols_upper. apply sym_ok. rewrite Forall_forall in K. auto. }
  assert (N : forall a, known a -> sym a <> EmptyString).
  { intros a Ka Q. apply sym_ok, symbols_upper in Ka. rewrite Q in Ka. discriminate. }
  induction l as [|a l IH]; intros [|b l'] K K' E; cbn in E.
  - split; [reflexivity|intros a []].
  - inversion K'; subst. specialize (N b H1). destruct (sym b); [contradiction|discriminate].
  - inversion K; subst. specialize (N a H1). destruct (sym a); [contradiction|discriminate].
  - inversion K; inversion K'; subst. assert (a = b) as <-.
    { apply sym_compat; [assumption|assumption|]. eapply compat_eq; [| |exact E]; apply dec_first. }
    apply sapp_inv in E. apply digits_split in E; [|apply digits_dec|apply digits_dec|now apply U|now apply U].
    destruct E as [E1 E2]. apply dec_inj in E1. destruct (IH l' H2 H6 E2) as [<- Q]. split; [reflexivity|]. intros c [<-|Hc]; [exact E1|auto].
Qed.

(** Increasing lists with the same entries are equal. *)
Lemma incr_ext l : incr l -> forall l', incr l' -> (forall a, In a l <-> In a l') -> l = l'.
Proof.
  induction 1 as [|x l H I IH]; intros l' I' E.
  - destruct l' as [|y l']; [reflexivity|]. destruct (proj2 (E y)); now left.
  - destruct I' as [|y l' H' I']; [destruct (proj1 (E x)); now left|].
    assert (x = y) as <-.
    { destruct (proj1 (E x)) as [Q|Q]; [now left|auto|]. destruct (proj2 (E y)) as [R|R]; [now left|auto|]. specialize (H _ R). specialize (H' _ Q). lia. }
    f_equal. apply IH; [exact I'|]. intros a. split; intros Q.
    + destruct (proj1 (E a)) as [<-|R]; [now right|specialize (H _ Q); lia|exact R].
    + destruct (proj2 (E a)) as [<-|R]; [now right|specialize (H' _ Q); lia|exact R].
Qed.
Lemma incr_sorted l : incr l -> StronglySorted Z.lt l.
Proof. induction 1 as [|x l H I IH]; constructor; [exact IH|]. apply Forall_forall. exact H. Qed.

Section Solo.
Context {F : Type}.
Variable an : F -> Z.
Notation raw := (@raw F).
Notation head := (head_numbers an).
Notation own m := (build an (unique (head m)) m).

Lemma own_known (m : raw) : shaped m -> closed an m -> Forall known (unique (head m)).
Proof.
  intros S C. pose proof (closed_head an m C S) as K. apply Forall_forall. intros a Ha. rewrite unique_in in Ha. exact (proj1 (Forall_forall _ _) K a Ha).
Qed.

Lemma read_alone (m : raw) : shaped m -> closed an m -> from_file an m None = Ok (own m).
Proof.
  intros S C. pose proof (closed_head an m C S) as K. pose proof (own_known m S C) as U.
  rewrite <- (read_shared an (unique (head m)) m S (unique_nodup _) U).
  2:{ intros t a Ht Ha. apply unique_in. destruct (C t a Ht Ha). assumption. }
  unfold from_file.
  assert (E : forall t, own_dict (numbers an m) = Ok t -> bind (mapM (fun p => number_of (fst p)) t) (fun l => Ok (t, l)) = bind (shared_dict (unique (head m)) (numbers an m)) (fun d => Ok (d, unique (head m)))).
  { intros t E. rewrite (own_dict_ok an m S K) in E. injection E as <-. rewrite (shared_dict_ok an _ m S (unique_nodup _) U). cbn [bind].
    assert (mapM (fun p => number_of (fst p)) (dict_of an (unique (head m)) m) = Ok (unique (head m))) as ->; [|reflexivity].
    unfold dict_of. induction U as [|a u Ka U IH]; [reflexivity|]. cbn [map mapM fst]. rewrite number_sym by exact Ka. cbn [bind]. rewrite IH. reflexivity. }
  destruct (shaped_facts an m S) as (n & P & L & G & W0 & W1 & W2 & W3 & W4 & Ov & Oe & Om & _).
  rewrite !G by lia. cbn [bind]. rewrite Ov, Oe, Om. cbn [bind]. fold (numbers an m). rewrite (own_dict_ok an m S K). cbn [bind].
  rewrite (E _ (own_dict_ok an m S K)). reflexivity.
Qed.

Lemma own_facts (m : raw) : shaped m -> closed an m -> whole (own m) /\ contains_files an (map fst (is_dict (own m))) [m] (own m).
Proof.
  intros S C. pose proof (own_known m S C) as U. set (l := unique (head m)) in *.
  assert (M : forall m', In m' [m] -> In m' [m]) by auto.
  assert (FS : forall m', In m' [m] -> shaped m') by (intros m' [<-|[]]; exact S).
  assert (FI : forall m' t a, In m' [m] -> In t (numbers an m') -> In a t -> In a l).
  { intros m' t a [<-|[]] Ht Ha. apply unique_in. destruct (C t a Ht Ha). assumption. }
  rewrite <- (join_single an l [m] m). split.
  - eapply join_whole; eassumption.
  - replace (map fst (is_dict (join an l [m] [m] (formula_of (dict_of an l m))))) with (map sym l).
    + eapply join_contains; eassumption.
    + cbn. unfold dict_of. rewrite map_map. reflexivity.
Qed.

(** ** One file *)
Lemma solo_read (m : raw) : shaped m -> closed an m ->
  exists s els, from_file an m None = Ok s /\ elements an m els /\ recorded an m els s /\ contains_files an (map fst (is_dict s)) [m] s /\ whole s.
Proof.
  intros S C. exists (own m), (unique (head m)). split; [now apply read_alone|]. destruct (own_facts m S C) as [W Q].
  split; [split; [apply incr_sorted, unique_incr|intros a; apply unique_in]|]. split; [|split; assumption].
  unfold recorded, build. cbn [is_dict]. unfold dict_of. pose proof (own_known m S C) as U. clear W Q. induction U as [|a l Ka U IH]; cbn [map]; [constructor|]. constructor; [|exact IH].
  cbn [fst snd]. split; [now apply sym_ok|reflexivity].
Qed.

Lemma solo_open (m : raw) : shaped m -> Forall known (head m) -> ~ closed an m -> from_file an m None = Err ValueError.
Proof.
  intros S K N. apply read_open; [exact S|exact K|]. intros C. apply N. intros t a Ht Ha. specialize (C t a Ht Ha). split; [|exact C].
  rewrite Forall_forall in K. exact (K a C).
Qed.

(** ** Names *)
Lemma own_formula (m m' : raw) : shaped m -> closed an m -> shaped m' -> closed an m' ->
  (is_formula (own m) = is_formula (own m') <-> same_composition an m m' = true).
Proof.
  intros S C S' C'. cbn. rewrite !formula_spell. unfold dict_of. split.
  - intros E. apply spell_inj in E; [|now apply own_known|now apply own_known]. destruct E as [E Q]. apply comp_iff. intros a.
    destruct (in_dec Z.eq_dec a (unique (head m))) as [I|I]; [now apply Q|].
    rewrite !count_nil_in; [reflexivity| |]; intros J; apply I; [rewrite E|]; now apply unique_in.
  - intros E. rewrite comp_iff in E.
    assert (U : unique (head m) = unique (head m')).
    { apply incr_ext; [apply unique_incr|apply unique_incr|]. intros a. rewrite !unique_in. specialize (E a).
      destruct (in_dec Z.eq_dec a (head m)) as [I|I], (in_dec Z.eq_dec a (head m')) as [J|J]; try tauto.
      - rewrite (count_nil_in a (head m') J) in E. exfalso. unfold count in E. apply length_zero_iff_nil in E.
        assert (In a (filter (Z.eqb a) (head m))) as Q by (apply filter_In; split; [exact I|apply Z.eqb_refl]). rewrite E in Q. destruct Q.
      - rewrite (count_nil_in a (head m) I) in E. symmetry in E. exfalso. unfold count in E. apply length_zero_iff_nil in E.
        assert (In a (filter (Z.eqb a) (head m'))) as Q by (apply filter_In; split; [exact J|apply Z.eqb_refl]). rewrite E in Q. destruct Q. }
    rewrite U. f_equal. apply map_ext. intros a. now rewrite E.
Qed.

Lemma solo_names (m m' : raw) s s' : shaped m -> closed an m -> shaped m' -> closed an m' -> from_file an m None = Ok s -> from_file an m' None = Ok s' ->
  (is_formula s = is_formula s' <-> forall a, length (filter (Z.eqb a) (head m)) = length (filter (Z.eqb a) (head m'))).
Proof.
  intros S C S' C' E E'. rewrite read_alone in E, E' by assumption. injection E as <-. injection E' as <-.
  rewrite own_formula by assumption. apply comp_iff.
Qed.

(** ** Saving one after another *)
Lemma save_app (p : nat) f1 : forall dir f2 d, save_alone an dir f1 p = (d, Ok tt) -> save_alone an dir (f1 ++ f2) p = save_alone an d f2 p.
Proof.
  induction f1 as [|m f1 IH]; intros dir f2 d E; cbn in *; [congruence|]. destruct (from_file an m None) as [s|]; [|discriminate].
  destruct (to_dir dir s (Some (Z.of_nat p))) as [d' [[]|]]; [|discriminate]. now apply IH.
Qed.

Lemma save_gen (p : nat) : 0 < p -> forall files dir, (forall m, In m files -> shaped m /\ closed an m) -> all_different an files ->
  (forall m, In m files -> ~ In (is_formula (own m)) (map fd_name dir)) ->
  exists new, save_alone an dir files p = (dir ++ new, Ok tt) /\ Forall2 (keeps an p) files new.
Proof.
  intros P. induction files as [|m files IH]; intros dir H D N; cbn [save_alone]; [exists []; rewrite app_nil_r; split; [reflexivity|constructor]|].
  destruct (H m) as [S C]; [now left|]. rewrite read_alone by assumption. destruct (own_facts m S C) as [W _].
  destruct (parts_saved dir (own m) p W P) as (parts & k & E & Hh & _); [apply N; now left|]. rewrite E.
  inversion D as [|x y Dm Dr]; subst.
  destruct (IH (dir ++ [mkDir (is_formula (own m)) (each_line (map fst (is_dict (own m)))) parts])) as (new & E2 & P2).
  - intros m' Hm. apply H. now right.
  - exact Dr.
  - intros m' Hm Q. rewrite map_app in Q. apply in_app_or in Q. destruct Q as [Q|[Q|[]]]; [apply (N m'); [now right|exact Q]|]. cbn [fd_name] in Q.
    destruct (H m') as [S' C']; [now right|]. apply (own_formula m m' S C S' C') in Q. rewrite Forall_forall in Dm. rewrite (Dm m' Hm) in Q. discriminate.
  - rewrite E2. eexists. split; [rewrite <- app_assoc; reflexivity|]. constructor; [|exact P2].
    exists (own m). split; [now apply read_alone|]. split; [reflexivity|]. split; [reflexivity|exact Hh].
Qed.

Lemma solo_saved (p : nat) files : 0 < p -> (forall m, In m files -> shaped m /\ closed an m) -> all_different an files ->
  exists dirs, save_alone an [] files p = (dirs, Ok tt) /\ Forall2 (keeps an p) files dirs.
Proof. intros P H D. destruct (save_gen p P files [] H D) as (new & E & Q); [intros m _ []|]. exists new. split; [exact E|exact Q]. Qed.

Lemma keeps_name p files dirs : Forall2 (keeps an p) files dirs -> (forall m, In m files -> shaped m /\ closed an m) ->
  map fd_name dirs = map (fun m => is_formula (own m)) files.
Proof.
  induction 1 as [|m d files dirs (s & E & N & _) Q IH]; intros H; [reflexivity|]. cbn [map]. destruct (H m) as [S C]; [now left|].
  rewrite read_alone in E by assumption. injection E as <-. rewrite N, IH; [reflexivity|]. intros m' Hm. apply H. now right.
Qed.

Lemma solo_again (p : nat) before m after : 0 < p -> (forall m', In m' (before ++ [m]) -> shaped m' /\ closed an m') -> all_different an before ->
  Exists (fun m' => same_composition an m' m = true) before ->
  exists dirs, save_alone an [] (before ++ m :: after) p = (dirs, Err FileExistsError) /\ Forall2 (keeps an p) before dirs.
Proof.
  intros P H D X. destruct (solo_saved p before P) as (dirs & E & Q); [intros m' Hm; apply H, in_or_app; auto|exact D|].
  exists dirs. split; [|exact Q]. rewrite (save_app p before [] (m :: after) dirs E). cbn [save_alone].
  destruct (H m) as [S C]; [apply in_or_app; right; now left|]. rewrite read_alone by assumption.
  rewrite parts_exist; [reflexivity|intros Z0; injection Z0; lia|].
  rewrite (keeps_name p before dirs Q) by (intros m' Hm; apply H, in_or_app; auto).
  apply Exists_exists in X. destruct X as (m' & Hm & X). apply in_map_iff. exists m'. split; [|exact Hm].
  destruct (H m') as [S' C']; [apply in_or_app; auto|]. now apply own_formula.
Qed.
End Solo.
