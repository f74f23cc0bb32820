From Verif Require Import Base StructModel StructSpec.
From Coq Require Import Sorting.Permutation Sorting.Sorted.

(** * Stable sorting *)
Section SortFacts.
Variable A : Type.
Variable key : A -> Z.
Notation le := (fun x y : A => (key x <= key y)%Z).

Lemma insert_perm x l : Permutation (x :: l) (insert key x l).
Proof.
  induction l as [|y r IH]; cbn [insert]; [apply Permutation_refl|].
  destruct (key x <=? key y)%Z; [apply Permutation_refl|].
  rewrite perm_swap. apply perm_skip. exact IH.
Qed.

Lemma sort_perm l : Permutation l (sort_by key l).
Proof.
  induction l as [|x r IH]; cbn [sort_by]; [constructor|].
  rewrite <- insert_perm. apply perm_skip. exact IH.
Qed.

Lemma insert_sorted x l : StronglySorted le l -> StronglySorted le (insert key x l).
Proof.
  induction 1 as [|y r Hs IH Hy]; cbn [insert].
  - repeat constructor.
  - destruct (Z.leb_spec (key x) (key y)).
    + constructor; [constructor; assumption|]. constructor; [assumption|].
      eapply Forall_impl; [|exact Hy]. cbn. intros. lia.
    + constructor; [exact IH|]. apply (Permutation_Forall (insert_perm x r)). constructor; [lia|exact Hy].
Qed.

Lemma sort_sorted l : StronglySorted le (sort_by key l).
Proof. induction l as [|x r IH]; cbn [sort_by]; [constructor|]. apply insert_sorted. exact IH. Qed.

Lemma insert_filter x l z :
  filter (fun y => (key y =? z)%Z) (insert key x l) = filter (fun y => (key y =? z)%Z) (x :: l).
Proof.
  induction l as [|y r IH]; cbn [insert]; [reflexivity|].
  destruct (Z.leb_spec (key x) (key y)); [reflexivity|].
  cbn [filter] in *. rewrite IH. destruct (Z.eqb_spec (key x) z), (Z.eqb_spec (key y) z); try reflexivity. lia.
Qed.

Lemma sort_filter l z :
  filter (fun y => (key y =? z)%Z) (sort_by key l) = filter (fun y => (key y =? z)%Z) l.
Proof.
  induction l as [|x r IH]; cbn [sort_by]; [reflexivity|].
  rewrite insert_filter. cbn [filter]. rewrite IH. reflexivity.
Qed.

Lemma sort_stable l : stable_sorted key l (sort_by key l).
Proof. split; [apply sort_perm|]. split; [apply sort_sorted|apply sort_filter]. Qed.

Lemma in_filter_key (l1 l2 : list A) x :
  (forall z, filter (fun y => (key y =? z)%Z) l1 = filter (fun y => (key y =? z)%Z) l2) -> In x l1 -> In x l2.
Proof.
  intros H Hx. assert (Hf : In x (filter (fun y => (key y =? key x)%Z) l1)).
  { apply filter_In. split; [exact Hx|apply Z.eqb_refl]. }
  rewrite H in Hf. apply filter_In in Hf. tauto.
Qed.

Lemma sorted_unique l1 : forall l2,
  StronglySorted le l1 -> StronglySorted le l2 ->
  (forall z, filter (fun y => (key y =? z)%Z) l1 = filter (fun y => (key y =? z)%Z) l2) -> l1 = l2.
Proof.
  induction l1 as [|x r1 IH]; intros [|y r2] S1 S2 H.
  - reflexivity.
  - specialize (H (key y)). cbn in H. rewrite Z.eqb_refl in H. discriminate.
  - specialize (H (key x)). cbn in H. rewrite Z.eqb_refl in H. discriminate.
  - inversion S1 as [|? ? S1' F1]; inversion S2 as [|? ? S2' F2]; subst.
    assert (K : key x = key y).
    { assert (Hx : In x (y :: r2)) by (apply (in_filter_key (x :: r1)); [exact H|left; reflexivity]).
      assert (Hy : In y (x :: r1)) by (apply (in_filter_key (y :: r2)); [intros z; symmetry; apply H|left; reflexivity]).
      rewrite Forall_forall in F1, F2.
      destruct Hx as [<-|Hx]; [reflexivity|]. destruct Hy as [->|Hy]; [reflexivity|].
      apply F2 in Hx. apply F1 in Hy. lia. }
    assert (E : x = y).
    { specialize (H (key x)). cbn in H. rewrite Z.eqb_refl, K, Z.eqb_refl in H. congruence. }
    subst y. f_equal. apply IH; try assumption. intros z. specialize (H z). cbn in H.
    destruct (key x =? z)%Z; congruence.
Qed.

Lemma filter_sorted (p : A -> bool) l : StronglySorted le l -> StronglySorted le (filter p l).
Proof.
  induction 1 as [|x r Hs IH Hx]; cbn [filter]; [constructor|].
  destruct (p x); [|exact IH]. constructor; [exact IH|].
  apply Forall_forall. intros y Hy. apply filter_In in Hy as [Hy _]. rewrite Forall_forall in Hx. auto.
Qed.

Lemma filter_filter_comm (p q : A -> bool) l : filter p (filter q l) = filter q (filter p l).
Proof.
  induction l as [|x r IH]; [reflexivity|]. cbn [filter].
  destruct (q x) eqn:Eq, (p x) eqn:Ep; cbn [filter]; rewrite ?Eq, ?Ep, ?IH; reflexivity.
Qed.

Lemma sort_filter_comm (p : A -> bool) l : filter p (sort_by key l) = sort_by key (filter p l).
Proof.
  apply sorted_unique.
  - apply filter_sorted, sort_sorted.
  - apply sort_sorted.
  - intros z. rewrite sort_filter. rewrite filter_filter_comm, sort_filter. apply filter_filter_comm.
Qed.

Lemma sort_id l : StronglySorted le l -> sort_by key l = l.
Proof.
  intros H. apply sorted_unique; [apply sort_sorted|exact H|apply sort_filter].
Qed.
End SortFacts.

Lemma stable_sorted_unique {A} (key : A -> Z) l l1 l2 :
  stable_sorted key l l1 -> stable_sorted key l l2 -> l1 = l2.
Proof.
  intros [_ [S1 F1]] [_ [S2 F2]]. apply (sorted_unique A key); try assumption.
  intros z. rewrite F1, F2. reflexivity.
Qed.

Lemma sort_map {A B} (f : A -> B) (key : B -> Z) l :
  sort_by key (map f l) = map f (sort_by (fun x => key (f x)) l).
Proof.
  induction l as [|x r IH]; [reflexivity|]. cbn [map sort_by]. rewrite IH.
  generalize (sort_by (fun x => key (f x)) r) as s. induction s as [|y s IHs]; [reflexivity|].
  cbn [map insert]. destruct (key (f x) <=? key (f y))%Z; [reflexivity|]. cbn [map]. rewrite IHs. reflexivity.
Qed.

Lemma filter_eq_repeat (z : Z) l : filter (fun y => (y =? z)%Z) l = repeat z (length (filter (fun y => (y =? z)%Z) l)).
Proof.
  induction l as [|x r IH]; [reflexivity|]. cbn [filter]. destruct (Z.eqb_spec x z); [|exact IH].
  subst. cbn [length repeat]. f_equal. exact IH.
Qed.

Lemma perm_filter_length {A} (p : A -> bool) l1 l2 : Permutation l1 l2 -> length (filter p l1) = length (filter p l2).
Proof. induction 1; cbn; repeat destruct (p _); cbn; congruence. Qed.

Lemma filter_length_le {A} (p : A -> bool) l : length (filter p l) <= length l.
Proof. induction l as [|x r IH]; cbn; [lia|]. destruct (p x); cbn; lia. Qed.

(** Sorting integers: any sorted permutation. *)
Lemma sort_Z_unique (l s : list Z) : Permutation l s -> StronglySorted Z.le s -> sort_by (fun z => z) l = s.
Proof.
  intros Hp Hs. apply (sorted_unique Z (fun z => z)).
  - apply sort_sorted.
  - exact Hs.
  - intros z. rewrite sort_filter. rewrite (filter_eq_repeat z l), (filter_eq_repeat z s).
    f_equal. apply perm_filter_length. exact Hp.
Qed.

(** * Grouping by an element list *)
Section Grouping.
Variables (P M : Type).
Notation spec_of := (fun s : Z * P * M => fst (fst s)).

Lemma grouped_species (elements : list Z) (sites : list (Z * P * M)) :
  map spec_of (flat_map (fun e => filter (fun s => (spec_of s =? e)%Z) sites) elements) =
  flat_map (fun e => repeat e (count e (map spec_of sites))) elements.
Proof.
  induction elements as [|e es IH]; [reflexivity|]. cbn [flat_map]. rewrite map_app, IH. f_equal.
  unfold count. clear. induction sites as [|s r IH]; [reflexivity|]. cbn [filter map].
  rewrite (Z.eqb_sym e). destruct (Z.eqb_spec (spec_of s) e); [|exact IH]. subst. cbn [map length repeat]. f_equal. exact IH.
Qed.

Lemma count_app z a b : count z (a ++ b) = count z a + count z b.
Proof. unfold count. rewrite filter_app, app_length. reflexivity. Qed.

Lemma count_repeat z n : count z (repeat z n) = n.
Proof. unfold count. induction n as [|n IH]; [reflexivity|]. cbn. rewrite Z.eqb_refl. cbn. congruence. Qed.

Lemma count_repeat_neq z y n : z <> y -> count z (repeat y n) = 0.
Proof.
  intros H. unfold count. induction n as [|n IH]; [reflexivity|]. cbn.
  destruct (Z.eqb_spec z y); [contradiction|exact IH].
Qed.

Lemma grouped_in es zs z : grouped es zs -> In z zs -> In z es.
Proof.
  revert zs; induction es as [|e es IH]; intros zs H Hz; cbn in H.
  - subst. contradiction.
  - destruct H as [n [rest [-> H]]]. apply in_app_iff in Hz as [Hz|Hz].
    + apply repeat_spec in Hz. left. congruence.
    + right. eapply IH; eassumption.
Qed.

Lemma count_notin z l : ~ In z l -> count z l = 0.
Proof.
  intros H. unfold count. destruct (filter (Z.eqb z) l) as [|y r] eqn:E; [reflexivity|].
  assert (Hy : In y (filter (Z.eqb z) l)) by (rewrite E; left; reflexivity).
  apply filter_In in Hy as [Hy Hz]. apply Z.eqb_eq in Hz. subst. contradiction.
Qed.

Lemma grouped_iff es zs : NoDup es ->
  (flat_map (fun e => repeat e (count e zs)) es = zs <-> grouped es zs).
Proof.
  intros Hnd. split.
  - intros H. rewrite <- H. clear H Hnd. generalize zs at 1. intros zs0. induction es as [|e es IH]; cbn; [reflexivity|]. eauto.
  - revert zs; induction es as [|e es IH]; intros zs H; cbn in *; [symmetry; exact H|].
    destruct H as [n [rest [-> H]]]. inversion Hnd as [|? ? Hnotin Hnd']; subst.
    assert (Hc : count e (repeat e n ++ rest) = n).
    { rewrite count_app, count_repeat, (count_notin e rest); [lia|]. intros Hin. apply Hnotin. eapply grouped_in; eassumption. }
    rewrite Hc. f_equal. transitivity (flat_map (fun e => repeat e (count e rest)) es); [|exact (IH Hnd' rest H)].
    rewrite !flat_map_concat_map. f_equal. apply map_ext_in. intros x Hx. f_equal.
    rewrite count_app, (count_repeat_neq x e); [reflexivity|]. intros ->. contradiction.
Qed.

(** Species of the result. *)
Lemma combine_fst {X Y} (l : list X) (r : list Y) : length l <= length r -> map fst (combine l r) = l.
Proof. revert r; induction l as [|x l IH]; intros [|y r] H; cbn in *; try reflexivity; [lia|]. f_equal. apply IH. lia. Qed.
Lemma combine_snd {X Y} (l : list X) (r : list Y) : length r <= length l -> map snd (combine l r) = r.
Proof. revert r; induction l as [|x l IH]; intros [|y r] H; cbn in *; try reflexivity; [lia|]. f_equal. apply IH. lia. Qed.

Lemma combine3_proj (zs : list Z) (ps : list P) (ms : list M) : length zs = length ps -> length ms = length ps ->
  map (fun s => snd (fst s)) (combine (combine zs ps) ms) = ps /\ map spec_of (combine (combine zs ps) ms) = zs.
Proof.
  revert ps ms; induction zs as [|z zs IH]; intros [|p ps] [|m ms] H1 H2; cbn in *; try discriminate; [auto|].
  destruct (IH ps ms) as [I1 I2]; [lia|lia|]. rewrite I1, I2. auto.
Qed.

Lemma reformat_result elements (sites : list (Z * P * M)) out :
  reformat_elements P elements sites = Ok out ->
  map (fun s => snd (fst s)) out = map (fun s => snd (fst s)) sites /\
  map spec_of out = flat_map (fun e => repeat e (count e (map spec_of sites))) elements.
Proof.
  unfold reformat_elements. intros H. destruct (Nat.eqb_spec (length (map spec_of (flat_map (fun e => filter (fun s => (spec_of s =? e)%Z) sites) elements))) (length (map (fun s => snd (fst s)) sites))) as [E|]; [|discriminate].
  injection H as <-. rewrite <- grouped_species.
  set (ns := flat_map _ elements) in *. rewrite !map_length in E.
  apply combine3_proj; rewrite !map_length; lia.
Qed.

Lemma combine_self (l : list (Z * P * M)) :
  combine (combine (map spec_of l) (map (fun s => snd (fst s)) l)) (map snd l) = l.
Proof. induction l as [|[[z p] m] l IH]; [reflexivity|]. cbn. rewrite IH. reflexivity. Qed.

Lemma reformat_species_kept elements (sites : list (Z * P * M)) out : NoDup elements ->
  reformat_elements P elements sites = Ok out ->
  (map spec_of out = map spec_of sites <-> grouped elements (map spec_of sites)).
Proof.
  intros Hnd H. apply reformat_result in H as [_ H]. rewrite H. apply grouped_iff. exact Hnd.
Qed.
End Grouping.

(** Sum of the counts of distinct elements. *)
Lemma reformat_ok_iff (P M : Type) elements (sites : list (Z * P * M)) : NoDup elements ->
  ((exists out, reformat_elements P elements sites = Ok out) <->
   Forall (fun s => In (fst (fst s)) elements) sites).
Proof.
  intros Hnd. unfold reformat_elements.
  set (f := fun e : Z => filter (fun s : Z * P * M => (fst (fst s) =? e)%Z) sites).
  rewrite !map_length.
  assert (Hlen : length (flat_map f elements) = length (filter (fun s => existsb (Z.eqb (fst (fst s))) elements) sites)).
  { unfold f. clear f. induction elements as [|e es IH]; cbn [flat_map].
    - cbn. induction sites; cbn; auto.
    - inversion Hnd as [|? ? Hn Hnd']; subst. rewrite app_length, (IH Hnd'). clear IH.
      induction sites as [|s r IHs]; [reflexivity|]. cbn [filter existsb]. cbn [existsb] in IHs.
      destruct (Z.eqb_spec (fst (fst s)) e) as [E|E]; cbn [orb length].
      + assert (existsb (Z.eqb (fst (fst s))) es = false) as ->.
        { destruct (existsb _ es) eqn:X; [|reflexivity]. apply existsb_exists in X as [y [Hy1 Hy2]].
          apply Z.eqb_eq in Hy2. congruence. }
        cbn [length]. rewrite <- IHs. lia.
      + destruct (existsb (Z.eqb (fst (fst s))) es); cbn [length]; rewrite <- IHs; lia. }
  rewrite Hlen.
  assert (Hfl : forall p : Z * P * M -> bool, length (filter p sites) = length sites <-> Forall (fun s => p s = true) sites).
  { intros p. clear. induction sites as [|s r IH]; [split; [constructor|reflexivity]|]. cbn [filter].
    rewrite Forall_cons_iff, <- IH. pose proof (filter_length_le p r). destruct (p s); cbn; split; intros; intuition (try lia; try discriminate). }
  destruct (Nat.eqb_spec (length (filter (fun s => existsb (Z.eqb (fst (fst s))) elements) sites)) (length sites)) as [E|E].
  - apply Hfl in E. split; [intros _|eauto]. eapply Forall_impl; [|exact E]. cbn. intros s Hs.
    apply existsb_exists in Hs as [y [Hy1 Hy2]]. apply Z.eqb_eq in Hy2. congruence.
  - split; [intros [out H]; discriminate|]. intros H. exfalso. apply E, Hfl. eapply Forall_impl; [|exact H].
    cbn. intros s Hs. apply existsb_exists. exists (fst (fst s)). split; [exact Hs|apply Z.eqb_refl].
Qed.
Lemma reformat_rejected (P M : Type) elements (sites : list (Z * P * M)) : NoDup elements ->
  ~ Forall (fun s => In (fst (fst s)) elements) sites -> reformat_elements P elements sites = Err ValueError.
Proof.
  intros Hnd H. assert (X : ~ exists out, reformat_elements P elements sites = Ok out) by (intros Y; apply H, (proj1 (reformat_ok_iff P M elements sites Hnd)), Y).
  unfold reformat_elements in *. destruct (length _ =? length _); [|reflexivity]. destruct X. eexists. reflexivity.
Qed.

(** * Vacancies *)
Section Vacancies.
Variable P : Type.
Variable is_vac : Z -> bool.
Notation site := (site P).
Notation real := (fun s : site => negb (is_vac (fst s))).

Lemma vacancy_indices_ge i l j : In j (vacancy_indices P is_vac i l) -> i <= j < i + length l.
Proof.
  revert i; induction l as [|s r IH]; intros i H; cbn in H; [contradiction|].
  cbn [length]. destruct (is_vac (fst s)); [destruct H as [<-|H]; [lia|]|]; apply IH in H; lia.
Qed.

Lemma keep_ext i idx1 idx2 (l : list site) :
  (forall j, i <= j -> (In j idx1 <-> In j idx2)) -> keep_from P i idx1 l = keep_from P i idx2 l.
Proof.
  revert i; induction l as [|s r IH]; intros i H; [reflexivity|]. cbn [keep_from].
  assert (E : existsb (Nat.eqb i) idx1 = existsb (Nat.eqb i) idx2).
  { apply eq_true_iff_eq. rewrite !existsb_exists. split; intros [x [Hx1 Hx2]]; apply Nat.eqb_eq in Hx2; subst x;
      exists i; (split; [apply H; [lia|exact Hx1]|apply Nat.eqb_refl]). }
  rewrite E. rewrite (IH (S i)) by (intros j Hj; apply H; lia). reflexivity.
Qed.

Lemma keep_first l : forall i, keep_from P i (vacancy_indices P is_vac i l) l = filter real l.
Proof.
  induction l as [|s r IH]; intros i; [reflexivity|]. cbn [keep_from vacancy_indices filter].
  destruct (is_vac (fst s)); cbn [negb].
  - cbn [existsb]. rewrite Nat.eqb_refl. cbn [orb]. rewrite <- (IH (S i)). apply keep_ext.
    intros j Hj. cbn. split; [intros [<-|H]; [lia|exact H]|auto].
  - destruct (existsb (Nat.eqb i) (vacancy_indices P is_vac (S i) r)) eqn:E.
    + apply existsb_exists in E as [x [Hx1 Hx2]]. apply Nat.eqb_eq in Hx2. subst.
      apply vacancy_indices_ge in Hx1. lia.
    + f_equal. apply IH.
Qed.

Lemma remove_once sites : remove_sites P (vacancy_indices P is_vac 0 sites) sites = filter real sites.
Proof. apply keep_first. Qed.

Lemma keep_none i idx (l : list site) : (forall j, In j idx -> i + length l <= j) -> keep_from P i idx l = l.
Proof.
  revert i; induction l as [|s r IH]; intros i H; [reflexivity|]. cbn [keep_from].
  destruct (existsb (Nat.eqb i) idx) eqn:E.
  - apply existsb_exists in E as [x [Hx1 Hx2]]. apply Nat.eqb_eq in Hx2. subst. apply H in Hx1. cbn in Hx1. lia.
  - f_equal. apply IH. intros j Hj. apply H in Hj. cbn in Hj. lia.
Qed.

Lemma keep_length i idx (l : list site) : length (keep_from P i idx l) <= length l.
Proof. revert i; induction l as [|s r IH]; intros i; cbn; [lia|]. specialize (IH (S i)). destruct (existsb _ idx); cbn; lia. Qed.

Lemma keep_shorter i idx (l : list site) j : In j idx -> i <= j < i + length l ->
  length (keep_from P i idx l) < length l.
Proof.
  revert i; induction l as [|s r IH]; intros i Hj Hr; cbn in Hr; [lia|]. cbn [keep_from].
  destruct (existsb (Nat.eqb i) idx) eqn:E.
  - pose proof (keep_length (S i) idx r). cbn. lia.
  - cbn. apply -> Nat.succ_lt_mono. apply IH; [exact Hj|].
    assert (i <> j); [|lia]. intros <-. assert (existsb (Nat.eqb i) idx = true); [|congruence].
    apply existsb_exists. exists i. split; [exact Hj|apply Nat.eqb_refl].
Qed.

Lemma fold_length idx (ks : list nat) (l : list site) :
  length (fold_left (fun cur _ => remove_sites P idx cur) ks l) <= length l.
Proof.
  revert l; induction ks as [|k ks IH]; intros l; cbn; [lia|]. rewrite IH. apply keep_length.
Qed.

Lemma fold_fix idx (ks : list nat) (l : list site) : remove_sites P idx l = l ->
  fold_left (fun cur _ => remove_sites P idx cur) ks l = l.
Proof. intros H. induction ks as [|k ks IH]; cbn; [reflexivity|]. rewrite H. exact IH. Qed.

(** The vacancies of the tail. *)
Lemma remove_vacanies_correct_iff sites :
  remove_vacanies P is_vac sites = filter real sites <->
  length (filter (fun s : site => is_vac (fst s)) sites) <= 1 \/
  (forall j, In j (vacancy_indices P is_vac 0 sites) -> length (filter real sites) <= j).
Proof.
  assert (Hlen : forall l i, length (vacancy_indices P is_vac i l) = length (filter (fun s : site => is_vac (fst s)) l)).
  { induction l as [|s r IH]; intros i; [reflexivity|]. cbn. destruct (is_vac (fst s)); cbn; rewrite IH; reflexivity. }
  unfold remove_vacanies. rewrite <- (Hlen sites 0). pose proof (remove_once sites) as H1.
  set (idx := vacancy_indices P is_vac 0 sites) in *.
  assert (Hgen : forall ks : list nat, fold_left (fun cur _ => remove_sites P idx cur) ks (filter real sites) = filter real sites <->
                 (ks = [] \/ forall j, In j idx -> length (filter real sites) <= j)).
  { intros ks. split.
    - intros H. destruct ks as [|k ks]; [left; reflexivity|]. right. intros j Hj. cbn in H.
      destruct (le_lt_dec (length (filter real sites)) j); [assumption|]. exfalso.
      pose proof (fold_length idx ks (remove_sites P idx (filter real sites))) as HL. rewrite H in HL.
      pose proof (keep_shorter 0 idx (filter real sites) j Hj). unfold remove_sites in HL. lia.
    - intros [->|H]; [reflexivity|]. apply fold_fix. apply keep_none. exact H. }
  destruct idx as [|k ks] eqn:Eidx.
  - cbn in *. split; [intros _; left; lia|intros _]. rewrite <- H1. unfold remove_sites. symmetry. apply keep_none. intros j [].
  - cbn [fold_left length]. rewrite H1. rewrite Hgen. split.
    + intros [->|H]; [left; cbn; lia|right; exact H].
    + intros [H|H]; [left; destruct ks; [reflexivity|cbn in H; lia]|right; exact H].
Qed.
End Vacancies.

(** * Counts per element *)
Lemma first_occ_in seen l z : In z (first_occurrences seen l) <-> In z l /\ ~ In z seen.
Proof.
  revert seen; induction l as [|x r IH]; intros seen; cbn [first_occurrences]; [cbn; tauto|].
  destruct (existsb (Z.eqb x) seen) eqn:E.
  - apply existsb_exists in E as [y [Hy1 Hy2]]. apply Z.eqb_eq in Hy2. subst y.
    rewrite IH. cbn. split; [tauto|]. intros [[<-|H] Hn]; [contradiction|tauto].
  - assert (Hx : ~ In x seen).
    { intros H. assert (existsb (Z.eqb x) seen = true); [|congruence]. apply existsb_exists. exists x. split; [exact H|apply Z.eqb_refl]. }
    cbn. rewrite IH. cbn. split.
    + intros [<-|[H1 H2]]; [auto|tauto].
    + intros [[<-|H1] H2]; [auto|]. destruct (Z.eq_dec x z); [auto|]. right. tauto.
Qed.

Lemma first_occ_nodup seen l : NoDup (first_occurrences seen l).
Proof.
  revert seen; induction l as [|x r IH]; intros seen; cbn [first_occurrences]; [constructor|].
  destruct (existsb (Z.eqb x) seen); [apply IH|]. constructor; [|apply IH].
  rewrite first_occ_in. cbn. tauto.
Qed.

(** Order of first appearance. *)
Lemma first_occ_order l : forall seen pre, (forall z, In z pre <-> In z seen) ->
  StronglySorted (fun a b => exists i j, first_at (pre ++ l) a i /\ first_at (pre ++ l) b j /\ i < j)
    (first_occurrences seen l).
Proof.
  assert (Hfirst : forall (a : list Z) z b, ~ In z a -> first_at (a ++ z :: b) z (length a)).
  { intros a z b Hn. split.
    - rewrite nth_error_app2, Nat.sub_diag by lia. reflexivity.
    - intros j Hj H. rewrite nth_error_app1 in H by exact Hj. apply nth_error_In in H. contradiction. }
  assert (Hex : forall l z, In z l -> exists i, first_at l z i).
  { clear. induction l as [|x r IH]; intros z H; [contradiction|]. destruct (Z.eq_dec x z).
    - subst. exists 0. split; [reflexivity|lia].
    - destruct H as [H|H]; [congruence|]. destruct (IH z H) as [i [H1 H2]]. exists (S i). split; [exact H1|].
      intros [|j] Hj; cbn; [congruence|]. apply H2. lia. }
  induction l as [|x r IH]; intros seen pre Hpre; cbn [first_occurrences]; [constructor|].
  destruct (existsb (Z.eqb x) seen) eqn:E.
  - apply existsb_exists in E as [y [Hy1 Hy2]]. apply Z.eqb_eq in Hy2. subst y.
    replace (pre ++ x :: r) with ((pre ++ [x]) ++ r) by (rewrite <- app_assoc; reflexivity).
    apply IH. intros z. rewrite in_app_iff, Hpre. cbn. split; [intros [H|[<-|[]]]; auto|auto].
  - assert (Hx : ~ In x seen).
    { intros H. assert (existsb (Z.eqb x) seen = true); [|congruence]. apply existsb_exists. exists x. split; [exact H|apply Z.eqb_refl]. }
    constructor.
    + replace (pre ++ x :: r) with ((pre ++ [x]) ++ r) by (rewrite <- app_assoc; reflexivity).
      apply IH. intros z. rewrite in_app_iff, Hpre. cbn. tauto.
    + apply Forall_forall. intros y Hy. apply first_occ_in in Hy as [Hy1 Hy2]. cbn in Hy2.
      destruct (Hex (pre ++ x :: r) y) as [j Hj]; [apply in_app_iff; right; right; exact Hy1|].
      exists (length pre), j. split; [apply Hfirst; rewrite Hpre; exact Hx|]. split; [exact Hj|].
      destruct Hj as [Hj _]. destruct (lt_eq_lt_dec (length pre) j) as [[H|H]|H]; [exact H| |]; exfalso.
      * subst j. rewrite nth_error_app2, Nat.sub_diag in Hj by lia. cbn in Hj. injection Hj as ->. tauto.
      * rewrite nth_error_app1 in Hj by exact H. apply nth_error_In in Hj. rewrite Hpre in Hj. tauto.
Qed.

Fixpoint sum (l : list nat) : nat := match l with [] => 0 | x :: r => x + sum r end.

Lemma sum_counts keys l : NoDup keys -> (forall z, In z l -> In z keys) ->
  sum (map (fun z => count z l) keys) = length l.
Proof.
  intros Hnd. revert l; induction keys as [|k ks IH]; intros l H.
  - destruct l as [|x r]; [reflexivity|]. destruct (H x (or_introl eq_refl)).
  - cbn [map sum]. inversion Hnd as [|? ? Hn Hnd']; subst.
    rewrite (map_ext_in _ (fun z => count z (filter (fun x => negb (Z.eqb k x)) l))).
    + rewrite (IH Hnd' (filter (fun x => negb (Z.eqb k x)) l)).
      * unfold count. clear. induction l as [|x r IH]; [reflexivity|]. cbn. destruct (k =? x)%Z; cbn; lia.
      * intros z Hz. apply filter_In in Hz as [Hz1 Hz2]. destruct (H z Hz1) as [->|Hk]; [|exact Hk].
        rewrite Z.eqb_refl in Hz2. discriminate.
    + intros z Hz. unfold count. clear -Hz Hn. induction l as [|x r IH]; [reflexivity|]. cbn.
      destruct (Z.eqb_spec z x), (Z.eqb_spec k x); cbn; subst; rewrite ?Z.eqb_refl; cbn; try congruence.
      * destruct (Z.eqb_spec z x); [contradiction|exact IH].
Qed.

Lemma count_pos z l : In z l -> 0 < count z l.
Proof.
  intros H. unfold count. destruct (filter (Z.eqb z) l) eqn:E; [|cbn; lia].
  assert (In z []) as []. rewrite <- E. apply filter_In. split; [exact H|apply Z.eqb_refl].
Qed.

(** * Supercells *)
Lemma arange_in s g : In g (arange s) <-> (0 <= g < s)%Z.
Proof.
  unfold arange. rewrite in_map_iff. split.
  - intros [n [<- H]]. apply in_seq in H. lia.
  - intros H. exists (Z.to_nat g). split; [lia|]. apply in_seq. lia.
Qed.

Lemma arange_nodup s : NoDup (arange s).
Proof.
  unfold arange. apply FinFun.Injective_map_NoDup; [|apply seq_NoDup]. intros a b H. lia.
Qed.

Lemma arange_length s : length (arange s) = Z.to_nat s.
Proof. unfold arange. rewrite map_length, seq_length. reflexivity. Qed.

Lemma dc_in s a : In a (doubled_coeffs s) <-> exists g, (0 <= g < s)%Z /\ a = (2 * g - (s - 1))%Z.
Proof.
  unfold doubled_coeffs. rewrite in_map_iff. split.
  - intros [g [<- H]]. apply arange_in in H. eauto.
  - intros [g [H ->]]. exists g. split; [reflexivity|]. apply arange_in. exact H.
Qed.

Lemma dc_nodup s : NoDup (doubled_coeffs s).
Proof. unfold doubled_coeffs. apply FinFun.Injective_map_NoDup; [|apply arange_nodup]. intros a b H. lia. Qed.

Lemma dc_length s : length (doubled_coeffs s) = Z.to_nat s.
Proof. unfold doubled_coeffs. rewrite map_length. apply arange_length. Qed.

Definition grid3 (l0 l1 l2 : list Z) : list (Z * Z * Z) :=
  flat_map (fun a => flat_map (fun b => map (fun c => (a, b, c)) l2) l1) l0.

Lemma grid3_in l0 l1 l2 a b c : In (a, b, c) (grid3 l0 l1 l2) <-> In a l0 /\ In b l1 /\ In c l2.
Proof.
  unfold grid3. rewrite in_flat_map. split.
  - intros [a' [Ha H]]. apply in_flat_map in H as [b' [Hb H]]. apply in_map_iff in H as [c' [E Hc]].
    injection E as <- <- <-. auto.
  - intros [Ha [Hb Hc]]. exists a. split; [exact Ha|]. apply in_flat_map. exists b. split; [exact Hb|].
    apply in_map_iff. eauto.
Qed.

Lemma flat_map_nodup {A B} (f : A -> list B) l : NoDup l -> (forall x, In x l -> NoDup (f x)) ->
  (forall x y z, In x l -> In y l -> In z (f x) -> In z (f y) -> x = y) -> NoDup (flat_map f l).
Proof.
  induction 1 as [|x r Hx Hr IH]; intros Hf Hd; cbn [flat_map]; [constructor|].
  assert (Hf1 : NoDup (f x)) by (apply Hf; left; reflexivity).
  assert (Hf2 : NoDup (flat_map f r)).
  { apply IH; [intros y Hy; apply Hf; right; exact Hy|]. intros a b z Ha Hb. apply Hd; right; assumption. }
  assert (Hdisj : forall z, In z (f x) -> In z (flat_map f r) -> False).
  { intros z Hz1 Hz2. apply in_flat_map in Hz2 as [y [Hy Hz2]].
    assert (x = y) by (eapply Hd; [left; reflexivity|right; exact Hy|exact Hz1|exact Hz2]). subst. contradiction. }
  clear -Hf1 Hf2 Hdisj. induction (f x) as [|w l IH]; [exact Hf2|]. cbn. inversion Hf1; subst. constructor.
  - rewrite in_app_iff. intros [H|H]; [contradiction|]. eapply Hdisj; [left; reflexivity|exact H].
  - apply IH; [assumption|]. intros z Hz. apply Hdisj. right. exact Hz.
Qed.

Lemma grid3_nodup l0 l1 l2 : NoDup l0 -> NoDup l1 -> NoDup l2 -> NoDup (grid3 l0 l1 l2).
Proof.
  intros H0 H1 H2. unfold grid3. apply flat_map_nodup; [exact H0| |].
  - intros a _. apply flat_map_nodup; [exact H1| |].
    + intros b _. apply FinFun.Injective_map_NoDup; [|exact H2]. intros x y E. congruence.
    + intros b b' z _ _ Hz1 Hz2. apply in_map_iff in Hz1 as [c [<- _]]. apply in_map_iff in Hz2 as [c' [E _]]. congruence.
  - intros a a' z _ _ Hz1 Hz2. apply in_flat_map in Hz1 as [b [_ Hz1]]. apply in_flat_map in Hz2 as [b' [_ Hz2]].
    apply in_map_iff in Hz1 as [c [<- _]]. apply in_map_iff in Hz2 as [c' [E _]]. congruence.
Qed.

Lemma flat_map_const_length {A B} (f : A -> list B) n l : (forall x, length (f x) = n) ->
  length (flat_map f l) = length l * n.
Proof. intros H. induction l as [|x r IH]; [reflexivity|]. cbn. rewrite app_length, H, IH. reflexivity. Qed.

Lemma grid3_length l0 l1 l2 : length (grid3 l0 l1 l2) = length l0 * (length l1 * length l2).
Proof.
  unfold grid3. apply flat_map_const_length. intros a. apply flat_map_const_length. intros b. apply map_length.
Qed.

Definition not_origin (t : Z * Z * Z) : bool :=
  let '(a, b, c) := t in negb ((a =? 0) && (b =? 0) && (c =? 0))%Z.
Lemma not_origin_spec t : not_origin t = true <-> t <> (0, 0, 0)%Z.
Proof.
  destruct t as [[a b] c]. unfold not_origin.
  destruct (Z.eqb_spec a 0), (Z.eqb_spec b 0), (Z.eqb_spec c 0); cbn; subst; split; congruence.
Qed.

Lemma shift_coeffs_eq s0 s1 s2 :
  shift_coeffs s0 s1 s2 = (0, 0, 0)%Z :: filter not_origin (grid3 (doubled_coeffs s0) (doubled_coeffs s1) (doubled_coeffs s2)).
Proof. reflexivity. Qed.

Lemma filter_origin_in l : NoDup l -> In (0, 0, 0)%Z l -> S (length (filter not_origin l)) = length l.
Proof.
  induction 1 as [|x r Hx Hr IH]; intros H; [contradiction|]. cbn [filter].
  destruct (not_origin x) eqn:E.
  - destruct H as [->|H]; [discriminate|]. cbn. rewrite IH by exact H. reflexivity.
  - assert (x = (0, 0, 0)%Z).
    { destruct x as [[a b] c]. unfold not_origin in E. apply negb_false_iff in E.
      rewrite !andb_true_iff, !Z.eqb_eq in E. destruct E as [[-> ->] ->]. reflexivity. }
    subst. cbn. f_equal. clear -Hx. induction r as [|y r IH]; [reflexivity|]. cbn [filter].
    destruct (not_origin y) eqn:E; [cbn; rewrite IH; [reflexivity|]; intros H; apply Hx; right; exact H|].
    exfalso. apply Hx. left. destruct y as [[a b] c]. unfold not_origin in E. apply negb_false_iff in E.
    rewrite !andb_true_iff, !Z.eqb_eq in E. destruct E as [[-> ->] ->]. reflexivity.
Qed.

Lemma filter_origin_notin l : ~ In (0, 0, 0)%Z l -> filter not_origin l = l.
Proof.
  induction l as [|x r IH]; intros H; [reflexivity|]. cbn [filter].
  assert (not_origin x = true) as -> by (apply not_origin_spec; intros ->; apply H; left; reflexivity).
  f_equal. apply IH. intros Hr. apply H. right. exact Hr.
Qed.

Lemma origin_in_iff s : In 0%Z (doubled_coeffs s) <-> positive_odd s.
Proof.
  rewrite dc_in. unfold positive_odd. split.
  - intros [g [Hg E]]. split; [lia|]. exists g. lia.
  - intros [Hp [k Hk]]. exists k. lia.
Qed.

Lemma origin_grid_iff s0 s1 s2 :
  In (0, 0, 0)%Z (grid3 (doubled_coeffs s0) (doubled_coeffs s1) (doubled_coeffs s2)) <->
  positive_odd s0 /\ positive_odd s1 /\ positive_odd s2.
Proof. rewrite grid3_in, !origin_in_iff. reflexivity. Qed.

Lemma list_mul_length {A} (l : list A) n : length (list_mul l n) = Z.to_nat n * length l.
Proof.
  unfold list_mul. induction (Z.to_nat n) as [|m IH]; [reflexivity|]. cbn. rewrite app_length, IH. reflexivity.
Qed.

(** The shifts as integer triples. *)
Definition halve (t : Z * Z * Z) : Z * Z * Z := let '(a, b, c) := t in (a / 2, b / 2, c / 2)%Z.
Definition double (t : Z * Z * Z) : Z * Z * Z := let '(a, b, c) := t in (2 * a, 2 * b, 2 * c)%Z.

Lemma dc_odd s a : positive_odd s -> (In a (doubled_coeffs s) <-> exists i, a = (2 * i)%Z /\ (2 * Z.abs i <= s - 1)%Z).
Proof.
  intros [Hp [k Hk]]. rewrite dc_in. split.
  - intros [g [Hg ->]]. exists (g - k)%Z. lia.
  - intros [i [-> Hi]]. exists (i + k)%Z. lia.
Qed.

Lemma shifts_box s0 s1 s2 : positive_odd s0 -> positive_odd s1 -> positive_odd s2 ->
  exists shifts, shift_coeffs s0 s1 s2 = map double shifts /\ NoDup shifts /\
    hd_error shifts = Some (0, 0, 0)%Z /\ forall t, In t shifts <-> in_box s0 s1 s2 t.
Proof.
  intros H0 H1 H2. exists (map halve (shift_coeffs s0 s1 s2)).
  assert (Hin : forall t, In t (shift_coeffs s0 s1 s2) <-> In t (grid3 (doubled_coeffs s0) (doubled_coeffs s1) (doubled_coeffs s2))).
  { intros t. rewrite shift_coeffs_eq. cbn [In]. rewrite filter_In, not_origin_spec. split.
    - intros [<-|[H _]]; [apply origin_grid_iff; auto|exact H].
    - intros H. destruct t as [[a b] c]. destruct (Z.eq_dec a 0), (Z.eq_dec b 0), (Z.eq_dec c 0); subst; auto; right; (split; [exact H|congruence]). }
  assert (Heven : forall t, In t (shift_coeffs s0 s1 s2) -> double (halve t) = t).
  { intros [[a b] c] H. apply Hin, grid3_in in H as [Ha [Hb Hc]].
    apply (dc_odd s0 a H0) in Ha as [i [-> _]]. apply (dc_odd s1 b H1) in Hb as [j [-> _]]. apply (dc_odd s2 c H2) in Hc as [k [-> _]].
    unfold double, halve, in_box. rewrite ?(Z.mul_comm 2 i), ?(Z.mul_comm 2 j), ?(Z.mul_comm 2 k), ?Z.div_mul by lia. f_equal; [f_equal|]; lia. }
  assert (Hnd : NoDup (shift_coeffs s0 s1 s2)).
  { rewrite shift_coeffs_eq. constructor.
    - rewrite filter_In, not_origin_spec. tauto.
    - apply NoDup_filter. apply grid3_nodup; apply dc_nodup. }
  split; [|split; [|split]].
  - rewrite map_map. symmetry. rewrite <- (map_id (shift_coeffs s0 s1 s2)) at 2. apply map_ext_in. exact Heven.
  - clear Hin. induction Hnd as [|x r Hx Hr IH]; [constructor|]. cbn [map]. constructor.
    + intros Hm. apply in_map_iff in Hm as [y [E Hy]]. apply Hx. apply (f_equal double) in E.
      rewrite !Heven in E by (cbn; auto). congruence.
    + apply IH. intros t Ht. apply Heven. right. exact Ht.
  - reflexivity.
  - intros t. rewrite in_map_iff. split.
    + intros [u [<- Hu]]. apply Hin in Hu. destruct u as [[a b] c]. apply grid3_in in Hu as [Ha [Hb Hc]].
      apply (dc_odd s0 a H0) in Ha as [i [-> Hi]]. apply (dc_odd s1 b H1) in Hb as [j [-> Hj]]. apply (dc_odd s2 c H2) in Hc as [k [-> Hk]].
      unfold double, halve, in_box. rewrite ?(Z.mul_comm 2 i), ?(Z.mul_comm 2 j), ?(Z.mul_comm 2 k), ?Z.div_mul by lia. lia.
    + intros H. exists (double t). destruct t as [[i j] k]. split.
      * unfold double, halve, in_box. rewrite ?(Z.mul_comm 2 i), ?(Z.mul_comm 2 j), ?(Z.mul_comm 2 k), ?Z.div_mul by lia. reflexivity.
      * apply Hin. unfold in_box, double in *. apply grid3_in. split; [|split].
        -- apply dc_odd; [exact H0|]. exists i. lia.
        -- apply dc_odd; [exact H1|]. exists j. lia.
        -- apply dc_odd; [exact H2|]. exists k. lia.
Qed.

Section Supercell.
Variable P : Type.
Variable translate : Z * Z * Z -> P -> P.
Notation site := (site P).

Lemma coords_length shifts (sites : list site) :
  length (flat_map (fun sh => map (fun s => translate sh (snd s)) sites) shifts) = length shifts * length sites.
Proof. apply flat_map_const_length. intros. apply map_length. Qed.

Lemma supercell_success_iff s0 s1 s2 mark (sites : list site) :
  (exists out, make_supercell_ P translate s0 s1 s2 mark sites = Ok out) <->
  sites = [] \/ (positive_odd s0 /\ positive_odd s1 /\ positive_odd s2).
Proof.
  unfold make_supercell_. unfold StructModel.site in *. rewrite coords_length, !list_mul_length, map_length, shift_coeffs_eq. cbn [length].
  pose proof (origin_grid_iff s0 s1 s2) as Ho.
  set (g := grid3 (doubled_coeffs s0) (doubled_coeffs s1) (doubled_coeffs s2)) in *.
  assert (Hg : length g = Z.to_nat s0 * (Z.to_nat s1 * Z.to_nat s2)) by (unfold g; rewrite grid3_length, !dc_length; reflexivity).
  assert (Hnd : NoDup g) by (apply grid3_nodup; apply dc_nodup).
  destruct (in_dec (fun x y : Z * Z * Z => ltac:(repeat decide equality)) (0, 0, 0)%Z g) as [Hin|Hin].
  - rewrite (filter_origin_in g Hnd Hin).
    match goal with |- context [if ?x =? ?y then _ else _] => assert ((x =? y) = true) as -> by (apply Nat.eqb_eq; rewrite Hg; unfold StructModel.site; ring) end.
    split; [intros _; right; tauto|intros _; eexists; reflexivity].
  - rewrite (filter_origin_notin g Hin). destruct sites as [|s ss].
    + match goal with |- context [if ?x =? ?y then _ else _] => assert ((x =? y) = true) as -> by (apply Nat.eqb_eq; cbn; lia) end.
      split; [auto|intros _; eexists; reflexivity].
    + assert (Hbad : forall n : nat, Z.to_nat s2 * (Z.to_nat s1 * (Z.to_nat s0 * S n)) <> S (Z.to_nat s0 * (Z.to_nat s1 * Z.to_nat s2)) * S n).
      { intros n. replace (Z.to_nat s2 * (Z.to_nat s1 * (Z.to_nat s0 * S n))) with (Z.to_nat s0 * (Z.to_nat s1 * Z.to_nat s2) * S n) by ring. cbn [Nat.mul]. lia. }
      match goal with |- context [if ?x =? ?y then _ else _] => assert ((x =? y) = false) as -> by (apply Nat.eqb_neq; rewrite Hg; apply Hbad) end.
      split; [intros [out H]; discriminate|]. intros [H|H]; [discriminate|tauto].
Qed.

Lemma supercell_fail s0 s1 s2 mark (sites : list site) : sites <> [] ->
  ~ (positive_odd s0 /\ positive_odd s1 /\ positive_odd s2) ->
  make_supercell_ P translate s0 s1 s2 mark sites = Err AssertionError.
Proof.
  intros Hne Hodd. pose proof (supercell_success_iff s0 s1 s2 mark sites) as H.
  destruct (make_supercell_ P translate s0 s1 s2 mark sites) as [out|e] eqn:E.
  - exfalso. assert (Hx : exists out0, Ok out = Ok out0) by eauto. apply H in Hx. tauto.
  - unfold make_supercell_ in E. destruct (_ =? _); congruence.
Qed.

Lemma combine_app {X Y} (a1 a2 : list X) (b1 b2 : list Y) : length a1 = length b1 ->
  combine (a1 ++ a2) (b1 ++ b2) = combine a1 b1 ++ combine a2 b2.
Proof. revert b1; induction a1 as [|x a1 IH]; intros [|y b1] H; cbn in *; try discriminate; [reflexivity|]. f_equal. apply IH. lia. Qed.

Lemma combine_copies (sites : list site) shifts :
  combine (concat (repeat (map fst sites) (length shifts)))
          (flat_map (fun sh => map (fun s => translate sh (snd s)) sites) shifts) =
  flat_map (fun sh => map (fun s => (fst s, translate sh (snd s))) sites) shifts.
Proof.
  induction shifts as [|sh r IH]; [reflexivity|]. cbn [length repeat concat flat_map].
  rewrite combine_app by (rewrite !map_length; reflexivity). rewrite IH. f_equal.
  clear. induction sites as [|s ss IHs]; [reflexivity|]. cbn. rewrite IHs. reflexivity.
Qed.

Lemma repeat_mul {A} (l : list A) m n : concat (repeat (concat (repeat l m)) n) = concat (repeat l (n * m)).
Proof.
  induction n as [|n IH]; [reflexivity|]. cbn [repeat concat]. rewrite IH.
  cbn [Nat.mul]. rewrite repeat_app, concat_app. reflexivity.
Qed.

Lemma supercell_sites s0 s1 s2 (sites : list site) :
  positive_odd s0 -> positive_odd s1 -> positive_odd s2 ->
  make_supercell_ P translate s0 s1 s2 false sites =
  Ok (flat_map (fun sh => map (fun s => (fst s, translate sh (snd s))) sites) (shift_coeffs s0 s1 s2)).
Proof.
  intros H0 H1 H2. unfold make_supercell_. rewrite coords_length, !list_mul_length, map_length.
  assert (Hlen : length (shift_coeffs s0 s1 s2) = Z.to_nat s2 * (Z.to_nat s1 * Z.to_nat s0)).
  { rewrite shift_coeffs_eq. cbn [length]. rewrite filter_origin_in.
    - rewrite grid3_length, !dc_length. ring.
    - apply grid3_nodup; apply dc_nodup.
    - apply origin_grid_iff. auto. }
  match goal with |- context [if ?x =? ?y then _ else _] => assert ((x =? y) = true) as -> by (apply Nat.eqb_eq; rewrite Hlen; unfold StructModel.site; ring) end.
  f_equal. unfold list_mul. rewrite !repeat_mul, <- Nat.mul_assoc, <- Hlen. apply combine_copies.
Qed.

(** * Key indices *)
Lemma index_of_in i l : In i l -> nth_error l (index_of i l) = Some i.
Proof.
  induction l as [|x r IH]; intros H; [contradiction|]. cbn [index_of].
  destruct (Nat.eqb_spec x i); [subst; reflexivity|]. destruct H as [H|H]; [contradiction|]. cbn. auto.
Qed.

Lemma index_of_nth l : NoDup l -> forall p i, nth_error l p = Some i -> index_of i l = p.
Proof.
  induction 1 as [|x r Hx Hr IH]; intros p i H; [destruct p; discriminate|]. cbn [index_of].
  destruct p as [|p]; cbn in H.
  - injection H as ->. rewrite Nat.eqb_refl. reflexivity.
  - destruct (Nat.eqb_spec x i); [subst; apply nth_error_In in H; contradiction|]. f_equal. auto.
Qed.

Definition pos_where (n : nat) (l : list nat) : list nat :=
  filter (fun p => match nth_error l p with Some i => i <? n | None => false end) (seq 0 (length l)).

Lemma map_seq_filter {A} (f : nat -> bool) (l : list (nat * A)) k :
  map (fun p => nth_error (map snd l) (p - k))
    (filter (fun p => match nth_error (map fst l) (p - k) with Some i => f i | None => false end) (seq k (length l))) =
  map (fun e => Some (snd e)) (filter (fun e => f (fst e)) l).
Proof.
  revert k; induction l as [|[i a] r IH]; intros k; [reflexivity|].
  cbn [length seq filter]. rewrite Nat.sub_diag. cbn [map nth_error fst snd].
  assert (Hext : filter (fun p => match nth_error (i :: map fst r) (p - k) with Some i => f i | None => false end) (seq (S k) (length r)) =
                 filter (fun p => match nth_error (map fst r) (p - S k) with Some i => f i | None => false end) (seq (S k) (length r))).
  { apply filter_ext_in. intros p Hp. apply in_seq in Hp. replace (p - k) with (S (p - S k)) by lia. reflexivity. }
  assert (Hmap : forall q, map (fun p => nth_error (a :: map snd r) (p - k)) (filter q (seq (S k) (length r))) =
                           map (fun p => nth_error (map snd r) (p - S k)) (filter q (seq (S k) (length r)))).
  { intros q. apply map_ext_in. intros p Hp. apply filter_In in Hp as [Hp _]. apply in_seq in Hp.
    replace (p - k) with (S (p - S k)) by lia. reflexivity. }
  destruct (f i); cbn [map].
  - rewrite Nat.sub_diag. cbn [nth_error]. f_equal. rewrite Hext, Hmap. apply IH.
  - rewrite Hext, Hmap. apply IH.
Qed.

Lemma enumerate_filter {A} (l : list A) n k :
  filter (fun e : nat * A => fst e <? n) (combine (seq k (length l)) l) = combine (seq k (length (firstn (n - k) l))) (firstn (n - k) l).
Proof.
  revert k; induction l as [|x r IH]; intros k; [rewrite firstn_nil; reflexivity|].
  cbn [length seq combine filter fst]. destruct (Nat.ltb_spec k n).
  - rewrite IH. replace (n - k) with (S (n - S k)) by lia. reflexivity.
  - rewrite IH. replace (n - S k) with 0 by lia. replace (n - k) with 0 by lia. reflexivity.
Qed.

Lemma enumerate_snd {A} (l : list A) k : map snd (combine (seq k (length l)) l) = l.
Proof. revert k; induction l as [|x r IH]; intros k; [reflexivity|]. cbn. f_equal. apply IH. Qed.
Lemma enumerate_fst {A} (l : list A) k : map fst (combine (seq k (length l)) l) = seq k (length l).
Proof. revert k; induction l as [|x r IH]; intros k; [reflexivity|]. cbn. f_equal. apply IH. Qed.

Lemma seq_filter_sorted f k n : StronglySorted lt (filter f (seq k n)).
Proof.
  revert k; induction n as [|n IH]; intros k; [constructor|]. cbn [seq filter].
  destruct (f k); [|apply IH]. constructor; [apply IH|]. apply Forall_forall. intros p Hp.
  apply filter_In in Hp as [Hp _]. apply in_seq in Hp. lia.
Qed.

Lemma key_idxs_spec s0 s1 s2 (sites : list site) :
  positive_odd s0 -> positive_odd s1 -> positive_odd s2 ->
  (forall p, translate (0, 0, 0)%Z p = p) ->
  exists idxs sup,
    get_key_idxs P translate s0 s1 s2 sites = Ok idxs /\
    make_supercell_ P translate s0 s1 s2 true sites = Ok sup /\
    length idxs = length sites /\ StronglySorted lt idxs /\
    map (nth_error sup) idxs = map Some (reformat_elements_ P sites).
Proof.
  intros H0 H1 H2 Ht. pose proof (supercell_sites s0 s1 s2 sites H0 H1 H2) as Hs.
  set (sup0 := flat_map _ _) in Hs.
  assert (Hs' : make_supercell_ P translate s0 s1 s2 true sites = Ok (reformat_elements_ P sup0)).
  { unfold make_supercell_ in *. destruct (_ =? _); [|discriminate]. injection Hs as <-. reflexivity. }
  assert (Hfirst : exists r, sup0 = sites ++ r).
  { unfold sup0. rewrite shift_coeffs_eq. cbn [flat_map]. eexists. f_equal.
    rewrite <- (map_id sites) at 2. apply map_ext. intros [z p]. cbn. rewrite Ht. reflexivity. }
  unfold get_key_idxs. rewrite Hs. cbn [bind].
  set (E := sort_by (fun e : nat * site => fst (snd e)) (enumerate sup0)).
  assert (HSI : sorted_indexes P sup0 = map fst E) by reflexivity.
  assert (HpermE : Permutation (enumerate sup0) E) by apply sort_perm.
  assert (Hperm : Permutation (seq 0 (length sup0)) (map fst E)).
  { rewrite <- (enumerate_fst sup0 0). apply Permutation_map. exact HpermE. }
  assert (Hnd : NoDup (map fst E)) by (apply (Permutation_NoDup Hperm); apply seq_NoDup).
  destruct Hfirst as [rest Hrest].
  assert (Hn : length sites <= length sup0) by (rewrite Hrest, app_length; lia).
  assert (HinSI : forall i, i < length sites -> In i (map fst E)).
  { intros i Hi. apply (Permutation_in _ Hperm). apply in_seq. lia. }
  rewrite HSI.
  assert (HmapM : mapM (fun i => if existsb (Nat.eqb i) (map fst E) then Ok (index_of i (map fst E)) else Err KeyError) (seq 0 (length sites))
          = Ok (map (fun i => index_of i (map fst E)) (seq 0 (length sites)))).
  { assert (Hall : forall i, In i (seq 0 (length sites)) -> i < length sites) by (intros i Hi; apply in_seq in Hi; lia).
    induction (seq 0 (length sites)) as [|i r IH]; [reflexivity|]. cbn [mapM map].
    assert (existsb (Nat.eqb i) (map fst E) = true) as ->.
    { apply existsb_exists. exists i. split; [apply HinSI, Hall; left; reflexivity|apply Nat.eqb_refl]. }
    cbn [bind]. rewrite IH by (intros j Hj; apply Hall; right; exact Hj). reflexivity. }
  rewrite HmapM. cbn [bind].
  set (K := pos_where (length sites) (map fst E)).
  assert (HK : map Z.to_nat (sort_by (fun z => z) (map Z.of_nat (map (fun i => index_of i (map fst E)) (seq 0 (length sites))))) = K).
  { rewrite (sort_Z_unique _ (map Z.of_nat K)).
    - rewrite map_map. rewrite (map_ext _ (fun x => x)) by (intros; apply Nat2Z.id). apply map_id.
    - apply Permutation_map. apply NoDup_Permutation.
      + clear HmapM. assert (Hinj : forall i j, In i (seq 0 (length sites)) -> In j (seq 0 (length sites)) -> index_of i (map fst E) = index_of j (map fst E) -> i = j).
        { intros i j Hi Hj Heq. apply in_seq in Hi. apply in_seq in Hj.
          pose proof (index_of_in i (map fst E) (HinSI i ltac:(lia))) as A1. pose proof (index_of_in j (map fst E) (HinSI j ltac:(lia))) as A2.
          rewrite Heq in A1. congruence. }
        pose proof (seq_NoDup (length sites) 0) as Hsn. induction Hsn as [|x r Hx Hr IH]; [constructor|]. cbn [map]. constructor.
        * intros Hm. apply in_map_iff in Hm as [y [Ey Hy]]. apply Hinj in Ey; [subst; contradiction|right; exact Hy|left; reflexivity].
        * apply IH. intros i j Hi Hj. apply Hinj; right; assumption.
      + unfold K, pos_where. apply NoDup_filter. apply seq_NoDup.
      + intros p. unfold K, pos_where. rewrite in_map_iff, filter_In, in_seq. split.
        * intros [i [<- Hi]]. apply in_seq in Hi. pose proof (index_of_in i (map fst E) (HinSI i ltac:(lia))) as A1. split.
          -- assert (index_of i (map fst E) < length (map fst E)) by (apply nth_error_Some; congruence). lia.
          -- rewrite A1. apply Nat.ltb_lt. lia.
        * intros [_ Hp]. destruct (nth_error (map fst E) p) as [i|] eqn:Ep; [|discriminate]. apply Nat.ltb_lt in Hp.
          exists i. split; [apply index_of_nth; assumption|]. apply in_seq. lia.
    - assert (HS : StronglySorted lt K) by apply seq_filter_sorted. clear -HS.
      induction HS as [|x r Hs IH Hx]; [constructor|]. cbn [map]. constructor; [exact IH|].
      apply Forall_map. eapply Forall_impl; [|exact Hx]. cbn. intros. lia. }
  rewrite HK. exists K, (reformat_elements_ P sup0). split; [reflexivity|]. split; [exact Hs'|].
  assert (Hmap : map (nth_error (reformat_elements_ P sup0)) K = map Some (reformat_elements_ P sites)).
  { assert (Hsup : reformat_elements_ P sup0 = map snd E).
    { unfold reformat_elements_, E. rewrite <- (sort_map snd (fun s : site => fst s)). unfold enumerate. rewrite enumerate_snd. reflexivity. }
    rewrite Hsup. unfold K, pos_where. rewrite map_length.
    pose proof (map_seq_filter (fun i => i <? length sites) E 0) as Hm.
    rewrite (filter_ext (fun p => match nth_error (map fst E) p with Some i => i <? length sites | None => false end)
                        (fun p => match nth_error (map fst E) (p - 0) with Some i => i <? length sites | None => false end))
      by (intros p; rewrite Nat.sub_0_r; reflexivity).
    rewrite (map_ext (nth_error (map snd E)) (fun p => nth_error (map snd E) (p - 0))) by (intros p; rewrite Nat.sub_0_r; reflexivity).
    rewrite Hm. rewrite <- (map_map snd Some). f_equal.
    unfold E. rewrite sort_filter_comm. unfold enumerate. unfold StructModel.site in *. rewrite (enumerate_filter sup0 (length sites) 0), Nat.sub_0_r.
    rewrite <- (sort_map snd (fun s : Z * P => fst s)). rewrite enumerate_snd. unfold reformat_elements_. f_equal.
    rewrite Hrest. rewrite firstn_app, firstn_all, Nat.sub_diag, firstn_O. apply app_nil_r. }
  split; [|split; [apply seq_filter_sorted|exact Hmap]].
  apply (f_equal (@length _)) in Hmap. rewrite !map_length in Hmap. rewrite Hmap.
  unfold reformat_elements_. symmetry. apply Permutation_length. apply sort_perm.
Qed.
End Supercell.
