(** Proofs about merging data files: the shared element order and the groups. *)
From Coq Require Import String ZifyBool ZifyNat Permutation.
From Verif Require Import Base ElementModel ElementProofs DataModel DataSpec DataText DataProofs DataParts DataMerge.

Section Merge.
Context {F : Type}.
Variable an : F -> Z.
Notation raw := (@raw F).
Notation head := (head_numbers an).
Notation nums := (numbers an).
Notation same := (same_composition an).

(** ** Equal composition *)
Lemma comp_iff (m m' : raw) : same m m' = true <-> forall a, count a (head m) = count a (head m').
Proof.
  unfold same_composition. rewrite forallb_forall. split.
  - intros H a. destruct (in_dec Z.eq_dec a (head m ++ head m')) as [I|I]; [apply Nat.eqb_eq; exact (H a I)|].
    rewrite !count_nil_in; [reflexivity|..]; intros Q; apply I, in_or_app; auto.
  - intros H a _. apply Nat.eqb_eq. exact (H a).
Qed.
Lemma comp_refl (m : raw) : same m m = true.
Proof. now apply comp_iff. Qed.
Lemma comp_sym (m m' : raw) : same m m' = same m' m.
Proof.
  destruct (same m m') eqn:A, (same m' m) eqn:B; try reflexivity.
  - rewrite comp_iff in A. apply Bool.not_true_iff_false in B. exfalso. apply B, comp_iff. intros a. now rewrite A.
  - rewrite comp_iff in B. apply Bool.not_true_iff_false in A. exfalso. apply A, comp_iff. intros a. now rewrite B.
Qed.
Lemma comp_trans (a b c : raw) : same a b = true -> same b c = true -> same a c = true.
Proof. rewrite !comp_iff. intros A B x. now rewrite A. Qed.

Section Shared.
Variable l : list Z.
Hypothesis l_nodup : NoDup l.
Hypothesis l_known : Forall known l.

Lemma upper_keys (m : raw) : Forall (fun p => starts_upper (fst p) = true) (dict_of an l m).
Proof.
  unfold dict_of. apply Forall_forall. intros p Hp. apply in_map_iff in Hp. destruct Hp as (a & <- & Ha). cbn.
  rewrite Forall_forall in l_known. eapply symbols_upper. apply sym_ok. auto.
Qed.

Lemma formula_same (m m' : raw) : (forall a, In a (head m) -> In a l) -> (forall a, In a (head m') -> In a l) ->
  same m m' = String.eqb (formula_of (dict_of an l m)) (formula_of (dict_of an l m')).
Proof.
  intros H H'. destruct (String.eqb _ _) eqn:E.
  - apply String.eqb_eq in E. apply formula_inj in E; [| |apply upper_keys].
    2:{ unfold dict_of. rewrite !map_map. reflexivity. }
    apply comp_iff. intros a. destruct (in_dec Z.eq_dec a l) as [I|I].
    + unfold dict_of in E. clear - E I. induction l as [|b l' IH]; [contradiction|]. cbn in E. destruct I as [<-|I]; [congruence|]. apply IH; [congruence|exact I].
    + rewrite !count_nil_in; [reflexivity|..]; intros Q; apply I; auto.
  - apply Bool.not_true_iff_false. intros Q. rewrite comp_iff in Q. apply Bool.not_true_iff_false in E. apply E. apply String.eqb_eq. f_equal.
    unfold dict_of. apply map_ext. intros a. now rewrite Q.
Qed.

Lemma same_atoms (m m' : raw) : (forall a, In a (head m) -> In a l) -> (forall a, In a (head m') -> In a l) ->
  same m m' = true -> length (head m) = length (head m').
Proof.
  intros H H' E. rewrite <- (count_total (head m) l), <- (count_total (head m') l) by assumption. f_equal. apply map_ext. now apply comp_iff.
Qed.

Variable files : list raw.
Hypothesis f_shaped : forall m, In m files -> shaped m.
Hypothesis f_in : forall m t a, In m files -> In t (nums m) -> In a t -> In a l.

Lemma head_row (m : raw) : In m files -> forall a, In a (head m) -> In a l.
Proof.
  intros Hm a Ha. unfold head_numbers in Ha. destruct (nums m) as [|t r] eqn:E; [destruct Ha|]. cbn in Ha.
  apply (f_in m t a Hm); [rewrite E; now left|exact Ha].
Qed.

Definition chosen (g : list raw) : raw := match g with [m] => m | _ => nth 0 (rev files) (mkRaw false false false []) end.

Definition join (g : list raw) (f : string) : infoset :=
  mkInfo (concat (map (fun m => array m 0) g)) (concat (map (fun m => map (map (idx l)) (nums m)) g)) (concat (map (fun m => array m 2) g))
         (concat (map (fun m => array m 3) g)) (concat (map (fun m => array m 4) g)) (dict_of an l (chosen g)) f (list_sum (map frames g))
         (option_map (@concat _) (all_some (map virial_of g))) (option_map (@concat _) (all_some (map eatom_of g))) (option_map (@concat _) (all_some (map magmom_of g))).

Lemma concat_ok {B} (g : list (list (list B))) w : g <> [] -> Forall (Forall (fun r => length r = w)) g -> np_concat g = Ok (concat g).
Proof.
  intros N W. unfold np_concat. destruct g as [|a g]; [contradiction|]. apply np_stack_ok. intros x y Hx Hy.
  apply in_concat in Hx, Hy. destruct Hx as (bx & Hx & Ix), Hy as (by_ & Hy & Iy). rewrite Forall_forall in W.
  pose proof (W _ Hx) as Wx. pose proof (W _ Hy) as Wy. rewrite Forall_forall in Wx, Wy. rewrite (Wx _ Ix), (Wy _ Iy). reflexivity.
Qed.

Lemma all_some_cons {B} (x : option B) o : all_some (x :: o) = match x, all_some o with Some a, Some r => Some (a :: r) | _, _ => None end.
Proof. reflexivity. Qed.
Lemma all_some_map {B} (o : list (option B)) : forall r, all_some o = Some r -> o = map Some r.
Proof.
  induction o as [|x o IH]; intros r E; [cbn in E; injection E as <-; reflexivity|]. rewrite all_some_cons in E. destruct x as [x|]; [|discriminate].
  destruct (all_some o) as [r'|]; [|discriminate]. injection E as <-. cbn. now rewrite <- IH.
Qed.
Lemma all_some_in {B} (o : list (option B)) r a : all_some o = Some r -> In a r -> In (Some a) o.
Proof. intros E H. apply all_some_map in E. subst. now apply in_map. Qed.
Lemma all_some_none {B} (o : list (option B)) : all_some o = None -> In None o.
Proof.
  induction o as [|x o IH]; [discriminate|]. rewrite all_some_cons. destruct x as [x|]; [|now left]. destruct (all_some o); [discriminate|]. right. auto.
Qed.

Lemma merge_optional_ok (o : list (option (list (list F)))) w : o <> [] -> (forall a, In (Some a) o -> Forall (fun r => length r = w) a) ->
  merge_optional o = Ok (option_map (@concat _) (all_some o)).
Proof.
  intros N W. unfold merge_optional. destruct (all_some o) as [r|] eqn:E; [|reflexivity]. rewrite (concat_ok r w); [reflexivity|..].
  - intros ->. apply all_some_map in E. now subst.
  - apply Forall_forall. intros a Ha. apply W. eapply all_some_in; eassumption.
Qed.

Lemma fold_plus k : forall b, fold_left plus k b = b + list_sum k.
Proof. induction k as [|x k IH]; intros b; cbn [fold_left]; [cbn; lia|]. rewrite IH, lsum_cons. lia. Qed.

Lemma filter_map_build f (ms : list raw) : filter (fun s => String.eqb (is_formula s) f) (map (build an l) ms) =
  map (build an l) (filter (fun m => String.eqb (formula_of (dict_of an l m)) f) ms).
Proof. induction ms as [|m ms IH]; [reflexivity|]. cbn. destruct (String.eqb _ f); cbn; now rewrite IH. Qed.

Lemma join_single (m : raw) : join [m] (formula_of (dict_of an l m)) = build an l m.
Proof.
  unfold join, build. cbn [map concat chosen]. rewrite !app_nil_r. cbn. rewrite Nat.add_0_r.
  destruct (virial_of m), (eatom_of m), (magmom_of m); cbn; now rewrite ?app_nil_r.
Qed.

Lemma chosen_many (g : list raw) : length g <> 1 -> chosen g = nth 0 (rev files) (mkRaw false false false []).
Proof using. destruct g as [|m [|m' g]]; cbn; [reflexivity|intros Q; contradiction Q; reflexivity|reflexivity]. Qed.

Lemma merge_ok (rep : raw) : In rep files -> length (filter (same rep) files) <> 1 ->
  merge (map (build an l) files) (formula_of (dict_of an l rep)) = Ok (join (filter (same rep) files) (formula_of (dict_of an l rep))).
Proof.
  intros Hr NL. unfold merge. rewrite filter_map_build.
  assert (E : filter (fun m => String.eqb (formula_of (dict_of an l m)) (formula_of (dict_of an l rep))) files = filter (same rep) files).
  { apply filter_ext_in. intros m Hm. rewrite String.eqb_sym. symmetry. apply formula_same; now apply head_row. }
  rewrite E. set (g := filter (same rep) files) in *.
  assert (N : g <> []). { intros Q. assert (I : In rep g) by (apply filter_In; split; [exact Hr|apply comp_refl]). rewrite Q in I. destruct I. }
  assert (G : forall m, In m g -> In m files /\ length (head m) = length (head rep)).
  { intros m Hm. apply filter_In in Hm. destruct Hm as [Hm Q]. split; [exact Hm|]. symmetry. apply same_atoms; try exact Q; now apply head_row. }
  assert (W : forall k w, (forall m, In m g -> Forall (fun r => length r = w) (array m k)) -> np_concat (map (fun m => array m k) g) = Ok (concat (map (fun m => array m k) g))).
  { intros k w H. apply (concat_ok _ w); [intros Q; apply map_eq_nil in Q; contradiction|]. apply Forall_forall. intros a Ha. apply in_map_iff in Ha.
    destruct Ha as (m & <- & Hm). auto. }
  rewrite !map_map. cbn [is_box is_types is_coord is_etot is_fatom is_virial is_eatom is_magmom is_frames build].
  assert (SF : forall m, In m g -> exists n, n = length (head rep) /\
     width_ok m (array m 0) 9 /\ width_ok m (array m 1) n /\ width_ok m (array m 2) (3 * n) /\ width_ok m (array m 3) 1 /\ width_ok m (array m 4) (3 * n) /\
     (forall a, virial_of m = Some a -> width_ok m a 9) /\ (forall a, eatom_of m = Some a -> width_ok m a n) /\ (forall a, magmom_of m = Some a -> width_ok m a n)).
  { intros m Hm. destruct (G m Hm) as [If Lh]. destruct (shaped_facts an m (f_shaped m If)) as (n & _ & Ln & _ & S0 & S1 & S2 & S3 & S4 & _ & _ & _ & Sv & Se & Sm).
    exists n. split; [congruence|]. repeat split; assumption || apply S0 || apply S1 || apply S2 || apply S3 || apply S4 || (eapply Sv; eassumption) || (eapply Se; eassumption) || (eapply Sm; eassumption). }
  rewrite (W 0 9). 2:{ intros m Hm. destruct (SF m Hm) as (n & -> & [_ S] & _). exact S. }
  cbn [bind]. rewrite (concat_ok _ (length (head rep))).
  2:{ intros Q. apply map_eq_nil in Q. contradiction. }
  2:{ apply Forall_forall. intros a Ha. apply in_map_iff in Ha. destruct Ha as (m & <- & Hm). destruct (SF m Hm) as (n & -> & _ & [_ S] & _).
      apply Forall_forall. intros r Hq. apply in_map_iff in Hq. destruct Hq as (t & <- & Ht). unfold numbers in Ht. apply in_map_iff in Ht. destruct Ht as (t' & <- & Ht).
      rewrite !map_length. rewrite Forall_forall in S. auto. }
  cbn [bind]. rewrite (W 2 (3 * length (head rep))). 2:{ intros m Hm. destruct (SF m Hm) as (n & -> & _ & _ & [_ S] & _). exact S. }
  cbn [bind]. rewrite (W 3 1). 2:{ intros m Hm. destruct (SF m Hm) as (n & -> & _ & _ & _ & [_ S] & _). exact S. }
  cbn [bind]. rewrite (W 4 (3 * length (head rep))). 2:{ intros m Hm. destruct (SF m Hm) as (n & -> & _ & _ & _ & _ & [_ S] & _). exact S. }
  cbn [bind]. rewrite (merge_optional_ok _ 9).
  2:{ intros Q. apply map_eq_nil in Q. contradiction. }
  2:{ intros a Ha. apply in_map_iff in Ha. destruct Ha as (m & E' & Hm). destruct (SF m Hm) as (n & -> & _ & _ & _ & _ & _ & S & _). now apply S. }
  cbn [bind]. rewrite (merge_optional_ok _ (length (head rep))).
  2:{ intros Q. apply map_eq_nil in Q. contradiction. }
  2:{ intros a Ha. apply in_map_iff in Ha. destruct Ha as (m & E' & Hm). destruct (SF m Hm) as (n & -> & _ & _ & _ & _ & _ & _ & S & _). now apply S. }
  cbn [bind]. rewrite (merge_optional_ok _ (length (head rep))).
  2:{ intros Q. apply map_eq_nil in Q. contradiction. }
  2:{ intros a Ha. apply in_map_iff in Ha. destruct Ha as (m & E' & Hm). destruct (SF m Hm) as (n & -> & _ & _ & _ & _ & _ & _ & _ & S). now apply S. }
  cbn [bind]. f_equal. unfold join. rewrite fold_plus. cbn [plus]. rewrite chosen_many by exact NL. f_equal.
  rewrite <- map_rev. destruct (rev files) as [|m r] eqn:Q; [|reflexivity].
  exfalso. assert (In rep (rev files)) by now apply in_rev in Hr. rewrite Q in H. destruct H.
Qed.

Lemma reduce_ok : reduce_sets (map (build an l) files) =
  Ok (map (fun rep => join (filter (same rep) files) (formula_of (dict_of an l rep))) (distinct same files)).
Proof.
  unfold reduce_sets. rewrite counter_eq, map_map. cbn [is_formula build].
  rewrite (distinct_map same String.eqb (fun m => formula_of (dict_of an l m)) files).
  2:{ intros m m' Hm Hm'. apply formula_same; now apply head_row. }
  assert (D : forall rep, In rep (distinct same files) -> In rep files) by (intros rep Hr; now apply distinct_in in Hr).
  assert (forall reps acc, (forall r, In r reps -> In r files) ->
    foldM (fun acc p => if snd p =? 1 then Ok (acc ++ filter (fun s => String.eqb (is_formula s) (fst p)) (map (build an l) files))
                        else bind (merge (map (build an l) files) (fst p)) (fun s => Ok (acc ++ [s])))
      (map (fun k => (k, scount k (map (fun m => formula_of (dict_of an l m)) files))) (map (fun m => formula_of (dict_of an l m)) reps)) acc =
    Ok (acc ++ map (fun rep => join (filter (same rep) files) (formula_of (dict_of an l rep))) reps)) as G; [|exact (G _ [] D)].
  clear D. induction reps as [|rep reps IH]; intros acc R; cbn [map foldM fst snd]; [now rewrite app_nil_r|].
  assert (Hr : In rep files) by (apply R; now left).
  assert (E : filter (fun m => String.eqb (formula_of (dict_of an l m)) (formula_of (dict_of an l rep))) files = filter (same rep) files).
  { apply filter_ext_in. intros m Hm. rewrite String.eqb_sym. symmetry. apply formula_same; now apply head_row. }
  assert (C : scount (formula_of (dict_of an l rep)) (map (fun m => formula_of (dict_of an l m)) files) = length (filter (same rep) files)).
  { rewrite <- E. unfold scount. clear. induction files as [|m ms IH]; [reflexivity|]. cbn. rewrite (String.eqb_sym (formula_of (dict_of an l rep))).
    destruct (String.eqb _ _); cbn; now rewrite IH. }
  rewrite C. destruct (length (filter (same rep) files) =? 1) eqn:Q; cbn [bind].
  - rewrite filter_map_build, E. destruct (filter (same rep) files) as [|m [|m' g]] eqn:Fq; try discriminate. cbn [map].
    assert (formula_of (dict_of an l rep) = formula_of (dict_of an l m)) as ->.
    { assert (I : In m [m]) by now left. rewrite <- E in I. apply filter_In in I. destruct I as [_ I]. apply String.eqb_eq in I. now symmetry. }
    rewrite join_single, IH by (intros; apply R; now right). now rewrite <- app_assoc.
  - apply Nat.eqb_neq in Q. rewrite merge_ok by assumption. cbn [bind]. rewrite IH by (intros; apply R; now right). now rewrite <- app_assoc.
Qed.

Lemma joined_ok (o : list (option (list (list F)))) : joined o (option_map (@concat _) (all_some o)).
Proof.
  destruct (all_some o) as [r|] eqn:E; cbn; [|now apply all_some_none]. exists r. split; [now apply all_some_map|reflexivity].
Qed.

Lemma join_contains g f : (forall m, In m g -> In m files) -> contains_files an (map sym l) g (join g f).
Proof.
  intros G. unfold contains_files, join. cbn. do 4 (split; [reflexivity|]). split; [|split; [reflexivity|]; split; [apply joined_ok|split; apply joined_ok]].
  assert (Q : forall m, In m g -> Forall2 (Forall2 (fun i a => exists k, nth_error (map sym l) i = Some k /\ symbol_of a = Ok k)) (map (map (idx l)) (nums m)) (nums m)).
  { intros m Hm. specialize (G m Hm). pose proof (f_in m) as I. specialize (I) with (1 := G). clear - I l_known.
    induction (nums m) as [|t ts IH]; cbn; constructor.
    - assert (J : forall a, In a t -> In a l) by (intros a; apply I; now left). clear - J l_known.
      induction t as [|a t IH]; cbn; constructor; [|apply IH; intros b Hb; apply J; now right].
      exists (sym a). assert (Ha : In a l) by (apply J; now left). split.
      + rewrite nth_error_map. destruct (index_ok l a Ha) as [_ ->]. reflexivity.
      + apply sym_ok. rewrite Forall_forall in l_known. auto.
    - apply IH. intros t' a Ht Ha. apply (I t' a); [now right|exact Ha]. }
  clear - Q. induction g as [|m g IH]; cbn; [constructor|]. apply Forall2_app; [apply Q; now left|]. apply IH. intros m' Hm. apply Q. now right.
Qed.

Lemma concat_frames {B} (h : raw -> list B) g : (forall m, In m g -> length (h m) = frames m) -> length (concat (map h g)) = list_sum (map frames g).
Proof.
  induction g as [|m g IH]; intros H; [reflexivity|]. cbn [map concat]. rewrite app_length, lsum_cons, H by now left. rewrite IH; [reflexivity|]. intros; apply H; now right.
Qed.

Lemma optional_frames (h : raw -> option (list (list F))) g : (forall m a, In m g -> h m = Some a -> length a = frames m) ->
  match option_map (@concat _) (all_some (map h g)) with Some a => length a = list_sum (map frames g) | None => True end.
Proof.
  intros H. destruct (all_some (map h g)) as [r|] eqn:E; cbn; [|exact I]. revert r E. induction g as [|m g IH]; intros r E.
  - cbn in E. injection E as <-. reflexivity.
  - cbn [map] in E. rewrite all_some_cons in E. destruct (h m) as [a|] eqn:Q; [|discriminate]. destruct (all_some (map h g)) as [r'|]; [|discriminate]. injection E as <-.
    cbn [concat map]. rewrite app_length, lsum_cons, (H m a) by (auto; now left). rewrite IH; [reflexivity| |reflexivity]. intros m' a' Hm. apply H. now right.
Qed.

Lemma join_whole g f : (forall m, In m g -> In m files) -> whole (join g f).
Proof.
  intros G. cbv [whole join]. cbn [is_frames is_box is_types is_coord is_etot is_fatom is_virial is_eatom is_magmom].
  assert (SF : forall m, In m g -> length (array m 0) = frames m /\ length (array m 1) = frames m /\ length (array m 2) = frames m /\ length (array m 3) = frames m /\ length (array m 4) = frames m /\
     (forall a, virial_of m = Some a -> length a = frames m) /\ (forall a, eatom_of m = Some a -> length a = frames m) /\ (forall a, magmom_of m = Some a -> length a = frames m)).
  { intros m Hm. destruct (shaped_facts an m (f_shaped m (G m Hm))) as (n & _ & _ & _ & S0 & S1 & S2 & S3 & S4 & _ & _ & _ & Sv & Se & Sm).
    split; [apply S0|]. split; [apply S1|]. split; [apply S2|]. split; [apply S3|]. split; [apply S4|].
    split; [intros a Ha; apply (Sv a Ha)|]. split; intros a Ha; [apply (Se a Ha)|apply (Sm a Ha)]. }
  split; [apply concat_frames; intros m Hm; destruct (SF m Hm) as (S & _); exact S|].
  split; [apply (concat_frames (fun m => map (map (idx l)) (nums m))); intros m Hm; unfold numbers; rewrite !map_length; destruct (SF m Hm) as (_ & S & _); exact S|].
  split; [apply concat_frames; intros m Hm; destruct (SF m Hm) as (_ & _ & S & _); exact S|].
  split; [apply concat_frames; intros m Hm; destruct (SF m Hm) as (_ & _ & _ & S & _); exact S|].
  split; [apply concat_frames; intros m Hm; destruct (SF m Hm) as (_ & _ & _ & _ & S & _); exact S|].
  split; [apply optional_frames; intros m a Hm; destruct (SF m Hm) as (_ & _ & _ & _ & _ & S & _); apply S|].
  split; apply optional_frames; intros m a Hm; destruct (SF m Hm) as (_ & _ & _ & _ & _ & _ & S & S'); [apply S|apply S'].
Qed.
End Shared.

(** ** The element order *)
Definition order (files : list raw) : list Z := distinct Z.eqb (flat_map (fun m => unique (head m)) files).

Lemma inner_loop (m : raw) (u : list Z) : Forall known u -> forall acc,
  foldM (fun acc p => bind (number_of (fst p)) (fun a => Ok (if existsb (Z.eqb a) acc then acc else acc ++ [a]))) (dict_of an u m) acc =
  Ok (fold_left (fun acc x => if existsb (Z.eqb x) acc then acc else acc ++ [x]) u acc).
Proof.
  induction 1 as [|a u K U IH]; intros acc; [reflexivity|]. cbn [dict_of map foldM fst]. rewrite number_sym by exact K. cbn [bind]. apply IH.
Qed.

Lemma shared_ok (files : list raw) (first : list (@infoset F)) : Forall2 (fun m (s : @infoset F) => Forall known (head m) /\ is_dict s = dict_of an (unique (head m)) m) files first ->
  shared_numbers first = Ok (order files).
Proof.
  intros P. unfold order. rewrite <- firsts_distinct. unfold shared_numbers, firsts.
  assert (forall acc, foldM (fun acc s => foldM (fun acc p => bind (number_of (fst p)) (fun a => Ok (if existsb (Z.eqb a) acc then acc else acc ++ [a]))) (is_dict s) acc) first acc =
    Ok (fold_left (fun acc x => if existsb (Z.eqb x) acc then acc else acc ++ [x]) (flat_map (fun m => unique (head m)) files) acc)) as G; [|apply G].
  induction P as [|m s files first [K E] P IH]; intros acc; [reflexivity|]. cbn [foldM flat_map]. rewrite E, inner_loop.
  - cbn [bind]. rewrite fold_left_app. apply IH.
  - apply Forall_forall. intros a Ha. rewrite unique_in in Ha. rewrite Forall_forall in K. auto.
Qed.

Lemma order_nodup files : NoDup (order files).
Proof. apply distinct_nodup. Qed.
Lemma order_in files a : In a (order files) <-> exists m, In m files /\ In a (head m).
Proof.
  unfold order. split.
  - intros H. apply distinct_in in H. apply in_flat_map in H. destruct H as (m & Hm & H). rewrite unique_in in H. eauto.
  - intros (m & Hm & H). apply in_distinct. apply in_flat_map. exists m. split; [exact Hm|]. now apply unique_in.
Qed.

Lemma closed_head (m : raw) : closed an m -> shaped m -> Forall known (head m).
Proof.
  intros C S. destruct (shaped_facts an m S) as (n & P & _ & _ & _ & [L1 _] & _). apply Forall_forall. intros a Ha.
  apply (C (head m) a); [|exact Ha]. unfold head_numbers. destruct (nums m) as [|t r] eqn:E; [|now left].
  unfold numbers in E. apply map_eq_nil in E. rewrite E in L1. cbn in L1. lia.
Qed.

Lemma merged_dir (files : list raw) : (forall m, In m files -> shaped m /\ closed an m) ->
  from_dir an files = Ok (map (fun rep => join (order files) files (filter (same rep) files) (formula_of (dict_of an (order files) rep))) (distinct same files)) /\
  NoDup (order files) /\ Forall known (order files) /\ (forall m t a, In m files -> In t (nums m) -> In a t -> In a (order files)).
Proof.
  intros H.
  assert (K : Forall known (order files)).
  { apply Forall_forall. intros a Ha. apply order_in in Ha. destruct Ha as (m & Hm & Ha). destruct (H m Hm) as [S C]. pose proof (closed_head m C S) as Q. rewrite Forall_forall in Q. auto. }
  assert (I : forall m t a, In m files -> In t (nums m) -> In a t -> In a (order files)).
  { intros m t a Hm Ht Ha. apply order_in. exists m. split; [exact Hm|]. destruct (H m Hm) as [_ C]. exact (proj2 (C t a Ht Ha)). }
  split; [|split; [apply order_nodup|split; [exact K|exact I]]].
  unfold from_dir.
  assert (E : exists first, mapM (fun m => from_file an m None) files = Ok first /\
     Forall2 (fun m (s : @infoset F) => Forall known (head m) /\ is_dict s = dict_of an (unique (head m)) m) files first).
  { clear K I. induction files as [|m files IH]; [exists []; split; [reflexivity|constructor]|].
    destruct IH as (first & E & P); [intros; apply H; now right|]. destruct (H m) as [S C]; [now left|].
    destruct (read_own an m S) as (s & R & D); [now apply closed_head|intros t a Ht Ha; exact (proj2 (C t a Ht Ha))|].
    exists (s :: first). cbn [mapM]. rewrite R. cbn [bind]. rewrite E. split; [reflexivity|]. constructor; [|exact P]. split; [now apply closed_head|exact D]. }
  destruct E as (first & E & P). rewrite E. cbn [bind]. rewrite (shared_ok _ _ P). cbn [bind].
  rewrite (mapM_ok _ (build an (order files))).
  - cbn [bind]. apply reduce_ok; [apply order_nodup|exact K|intros m Hm; apply (H m Hm)|exact I].
  - intros m Hm. apply read_shared; [apply (H m Hm)|apply order_nodup|exact K|]. intros t a. now apply I.
Qed.

(** The complete description of a merged directory. *)
Lemma merged_groups (files : list raw) : (forall m, In m files -> shaped m /\ closed an m) ->
  exists out keys, from_dir an files = Ok out /\
  Forall2 (fun rep s => contains_files an keys (filter (same rep) files) s) (distinct same files) out /\
  Forall (fun s => map fst (is_dict s) = keys /\ whole s) out /\
  NoDup (map is_formula out) /\ NoDup keys /\
  Permutation (concat (map (fun rep => filter (same rep) files) (distinct same files))) files /\
  get_num_frames out = list_sum (map frames files).
Proof.
  intros H. destruct (merged_dir files H) as (E & N & K & I). set (l := order files) in *.
  assert (S : forall m, In m files -> shaped m) by (intros m Hm; apply (H m Hm)).
  exists (map (fun rep => join l files (filter (same rep) files) (formula_of (dict_of an l rep))) (distinct same files)), (map sym l). split; [exact E|].
  assert (FI : forall rep m, In m (filter (same rep) files) -> In m files) by (intros rep m Hm; now apply filter_In in Hm).
  split. { clear E. induction (distinct same files) as [|rep reps IH]; cbn; [constructor|]. constructor; [|exact IH]. apply join_contains with (files := files); auto. apply FI. }
  split. { apply Forall_forall. intros s Hs. apply in_map_iff in Hs. destruct Hs as (rep & <- & _). split; [unfold join, dict_of; cbn; rewrite map_map; reflexivity|].
    apply join_whole; auto. apply FI. }
  assert (P : Permutation (concat (map (fun rep => filter (same rep) files) (distinct same files))) files)
    by (apply groups_all; [exact comp_refl|exact comp_sym|exact comp_trans]).
  split. { rewrite map_map. cbn [is_formula join].
    rewrite <- (distinct_map same String.eqb (fun m => formula_of (dict_of an l m)) files); [apply distinct_str_nodup|].
    intros m m' Hm Hm'. apply formula_same; [exact K|exact (head_row l files I m Hm)|exact (head_row l files I m' Hm')]. }
  split; [now apply nodup_sym|]. split; [exact P|].
  unfold get_num_frames. rewrite <- (sum_perm frames _ _ P), <- sum_concat.
  assert (Q : forall (sets : list (@infoset F)) b, fold_left (fun n s => n + is_frames s) sets b = b + list_sum (map is_frames sets)).
  { induction sets as [|s sets IH]; intros b; cbn [fold_left map]; [cbn; lia|]. rewrite IH, lsum_cons. lia. }
  rewrite Q. cbn [plus]. rewrite !map_map. reflexivity.
Qed.

(** The counts stored with the sets. *)
Lemma merged_counts (files : list raw) : (forall m, In m files -> shaped m /\ closed an m) ->
  exists out keys, from_dir an files = Ok out /\
  Forall2 (fun rep s => exists m, (filter (same rep) files = [m] \/ length (filter (same rep) files) <> 1 /\ exists r, files = r ++ [m]) /\
    Forall2 (fun k p => fst p = k /\ exists a, symbol_of a = Ok k /\ snd p = length (filter (Z.eqb a) (head m))) keys (is_dict s)) (distinct same files) out.
Proof.
  intros H. destruct (merged_dir files H) as (E & N & K & I). set (l := order files) in *. eexists _, (map sym l). split; [exact E|].
  assert (D : forall rep, In rep (distinct same files) -> In rep files) by (intros rep Hr; now apply distinct_in in Hr).
  clear E. induction (distinct same files) as [|rep reps IH]; cbn; [constructor|]. constructor; [|apply IH; intros; apply D; now right].
  exists (chosen files (filter (same rep) files)). split.
  - assert (I0 : In rep (filter (same rep) files)) by (apply filter_In; split; [apply D; now left|apply comp_refl]).
    destruct (Nat.eq_dec (length (filter (same rep) files)) 1) as [L|L].
    + left. destruct (filter (same rep) files) as [|m [|m' g]]; try discriminate. reflexivity.
    + right. split; [exact L|]. rewrite chosen_many by exact L. assert (Hr : In rep files) by (apply D; now left). clear - Hr.
      destruct files as [|x xs] using rev_ind; [destruct Hr|]. exists xs. rewrite rev_app_distr. reflexivity.
  - cbn [is_dict join]. unfold dict_of. clear - K. induction K as [|a l Ka K IH]; cbn; [constructor|]. constructor; [|exact IH]. cbn. split; [reflexivity|]. exists a.
    split; [now apply sym_ok|reflexivity].
Qed.

(** A file with an element that its first frame lacks stops the reading. *)
Lemma open_file (files : list raw) : (forall m, In m files -> shaped m /\ Forall known (head m)) -> Exists (fun m => ~ closed an m) files ->
  from_dir an files = Err ValueError.
Proof.
  intros H X. unfold from_dir.
  assert (mapM (fun m => from_file an m None) files = Err ValueError) as ->; [|reflexivity].
  induction X as [m files X|m files X IH]; cbn [mapM].
  - destruct (H m) as [S K]; [now left|]. rewrite read_open; [reflexivity|assumption|assumption|].
    intros C. apply X. intros t a Ht Ha. split; [|eauto]. rewrite Forall_forall in K. apply K. eauto.
  - destruct (H m) as [S K]; [now left|].
    destruct (from_file an m None) as [s|e] eqn:E.
    + cbn [bind]. rewrite IH; [reflexivity|]. intros m' Hm. apply H. now right.
    + cbn [bind]. f_equal. 
      destruct (Forall_Exists_dec (fun t => Forall (fun a => In a (head m)) t) (fun t => Forall_dec _ (fun a => in_dec Z.eq_dec a (head m)) t) (nums m)) as [Q|Q].
      * destruct (read_own an m S K) as (s & R & _); [|congruence]. intros t a Ht Ha. rewrite Forall_forall in Q. specialize (Q t Ht). rewrite Forall_forall in Q. auto.
      * rewrite read_open in E; [congruence|assumption|assumption|]. intros C. apply Exists_exists in Q. destruct Q as (t & Ht & Q). apply Q. apply Forall_forall. eauto.
Qed.

(** ** Saving the merged sets *)
Lemma save_all (p : nat) : 0 < p -> forall (sets : list (@infoset F)) dir, Forall whole sets -> NoDup (map fd_name dir ++ map is_formula sets) ->
  exists new, all_to_dir dir sets (Z.of_nat p) = (dir ++ new, Ok tt) /\
  Forall2 (fun s d => fd_name d = is_formula s /\ fd_types d = each_line (map fst (is_dict s)) /\ holds_set (fd_parts d) s p) sets new.
Proof.
  intros P. induction sets as [|s sets IH]; intros dir W N; [exists []; rewrite app_nil_r; split; [reflexivity|constructor]|].
  inversion W; subst. cbn [map] in N. destruct (parts_saved dir s p) as (parts & k & E & Hh & _); [assumption|exact P| |].
  { apply NoDup_remove_2 in N. intros Q. apply N, in_or_app. auto. }
  cbn [all_to_dir]. rewrite E. destruct (IH (dir ++ [mkDir (is_formula s) (each_line (map fst (is_dict s))) parts])) as (new & E2 & P2); [assumption| |].
  { rewrite map_app. cbn. now rewrite <- app_assoc. }
  rewrite E2. eexists. split; [rewrite <- app_assoc; reflexivity|]. constructor; [|exact P2]. repeat split; apply Hh.
Qed.

Lemma save_merged (files : list raw) (o : option nat) : (forall m, In m files -> shaped m /\ closed an m) -> o <> Some 0 -> files <> [] ->
  exists out dirs p, from_dir an files = Ok out /\ p = match o with Some p => p | None => list_sum (map frames files) end /\
  sets_to_dir [] out (option_map Z.of_nat o) = (dirs, Ok tt) /\
  Forall2 (fun s d => fd_name d = is_formula s /\ fd_types d = each_line (map fst (is_dict s)) /\ holds_set (fd_parts d) s p) out dirs.
Proof.
  intros H O Nf. destruct (merged_groups files H) as (out & keys & E & _ & W & N & _ & _ & T).
  set (p := match o with Some p => p | None => list_sum (map frames files) end).
  assert (P : 0 < p).
  { subst p. destruct o as [[|p]|]; [congruence|lia|]. destruct files as [|m fs]; [contradiction|]. cbn [map]. rewrite lsum_cons.
    destruct (H m) as [S _]; [now left|]. destruct S as (n & S & _). lia. }
  destruct (save_all p P out []) as (dirs & D & F2).
  { apply Forall_forall. intros s Hs. rewrite Forall_forall in W. apply (W s Hs). }
  { exact N. }
  exists out, dirs, p. split; [exact E|]. split; [reflexivity|]. split; [|exact F2]. unfold sets_to_dir. rewrite T.
  cbn [app] in D. rewrite <- D. f_equal. subst p. destruct o; reflexivity.
Qed.
End Merge.

Lemma merged_types {F} (an : F -> Z) (files : list raw) : (forall m, In m files -> shaped m /\ closed an m) ->
  exists out keys, from_dir an files = Ok out /\ NoDup keys /\
  Forall2 (fun rep s => map fst (is_dict s) = keys /\
    Forall2 (Forall2 (fun i a => exists k, nth_error keys i = Some k /\ symbol_of a = Ok k))
      (is_types s) (concat (map (numbers an) (filter (same_composition an rep) files))))
    (distinct (same_composition an) files) out.
Proof.
  intros H. destruct (merged_groups an files H) as (out & keys & E & G & K & _ & N & _). exists out, keys. split; [exact E|]. split; [exact N|].
  revert K. clear E. induction G as [|rep s reps out C G IH]; intros K; constructor; inversion K; subst; [|auto].
  split; [tauto|]. unfold contains_files in C. tauto.
Qed.
