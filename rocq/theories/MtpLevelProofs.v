(** Lemmas about the enumeration of moment combinations. *)
From Verif Require Import Base MtpLevelModel MtpLevelSpec StructProofs.

Local Arguments moment_level : simpl never.
Local Arguments calc_level : simpl never.
Local Arguments list_sum : simpl never.

Lemma lsum_nil : list_sum [] = 0.
Proof. reflexivity. Qed.
Lemma lsum_cons x l : list_sum (x :: l) = x + list_sum l.
Proof. reflexivity. Qed.

Lemma level_eq mu nu : calc_level mu nu = moment_level (mu, nu).
Proof. reflexivity. Qed.

Lemma moment_level_pos p : 2 <= moment_level p.
Proof. unfold moment_level. lia. Qed.

Lemma total_cons p c : total_level (p :: c) = moment_level p + total_level c.
Proof. reflexivity. Qed.

Lemma total_perm c c' : Permutation c c' -> total_level c = total_level c'.
Proof. induction 1; rewrite ?total_cons in *; lia. Qed.

(** Sequences with non-decreasing levels. *)
Fixpoint climbing (lo : nat) (s : comb) : Prop :=
  match s with [] => True | p :: r => lo <= moment_level p /\ climbing (moment_level p) r end.

Lemma climbing_weaken s lo lo' : lo' <= lo -> climbing lo s -> climbing lo' s.
Proof. destruct s; cbn; [tauto|]. intros; split; [lia|tauto]. Qed.

Lemma climbing_ge s : forall lo p, climbing lo s -> In p s -> lo <= moment_level p.
Proof.
  induction s as [|q r IH]; cbn; intros lo p H Hp; [tauto|].
  destruct H as [H1 H2], Hp as [<-|Hp]; [lia|]. specialize (IH _ _ H2 Hp). lia.
Qed.

(** The sequences the recursion walks through, and what it makes of them. *)
Fixpoint raw (fuel aim smu snu : nat) : list comb :=
  match fuel with
  | O => []
  | S fuel' =>
      if aim =? 0 then [[]]
      else
        flat_map (fun mu =>
          flat_map (fun nu =>
            if calc_level mu nu <? calc_level smu snu then []
            else if calc_level mu nu <=? aim
            then map (cons (mu, nu)) (raw fuel' (aim - calc_level mu nu) mu nu)
            else [])
          (seq 0 aim))
        (seq 0 aim)
  end.

Lemma raw_in f : forall aim smu snu s, aim < f ->
  (In s (raw f aim smu snu) <-> total_level s = aim /\ climbing (moment_level (smu, snu)) s).
Proof.
  induction f as [|f IH]; intros aim smu snu s Hf; [lia|]. cbn [raw].
  destruct (Nat.eqb_spec aim 0) as [E|E].
  - subst aim. cbn [In]. split.
    + intros [<-|[]]. split; [reflexivity|exact I].
    + intros [H _]. left. destruct s as [|p r]; [reflexivity|]. rewrite total_cons in H. pose proof (moment_level_pos p). lia.
  - rewrite in_flat_map. split.
    + intros (mu & Hmu & H). apply in_flat_map in H as (nu & Hnu & H).
      destruct (Nat.ltb_spec (calc_level mu nu) (calc_level smu snu)) as [L|L]; [destruct H|].
      destruct (Nat.leb_spec (calc_level mu nu) aim) as [L'|L']; [|destruct H].
      apply in_map_iff in H as (r & <- & Hr).
      rewrite level_eq in *. pose proof (moment_level_pos (mu, nu)).
      apply IH in Hr as [Ht Hc]; [|lia]. rewrite total_cons. cbn [climbing]. rewrite level_eq in L. repeat split; try lia. exact Hc.
    + intros [Ht Hc]. destruct s as [|[mu nu] r]; [change (0 = aim) in Ht; lia|].
      rewrite total_cons in Ht. cbn [climbing] in Hc. destruct Hc as [H1 H2].
      pose proof (moment_level_pos (mu, nu)) as Hp.
      assert (B : mu < aim /\ nu < aim) by (unfold moment_level in *; cbn [fst snd] in *; lia).
      exists mu. split; [apply in_seq; lia|]. apply in_flat_map. exists nu. split; [apply in_seq; lia|].
      rewrite !level_eq.
      destruct (Nat.ltb_spec (moment_level (mu, nu)) (moment_level (smu, snu))) as [L|L]; [lia|].
      destruct (Nat.leb_spec (moment_level (mu, nu)) aim) as [L'|L']; [|lia].
      apply in_map. apply IH; [lia|]. split; [lia|exact H2].
Qed.

Lemma raw_nodup f : forall aim smu snu, NoDup (raw f aim smu snu).
Proof.
  induction f as [|f IH]; intros aim smu snu; cbn [raw]; [constructor|].
  destruct (aim =? 0); [constructor; [intros []|constructor]|].
  assert (Hin : forall mu nu s, In s (if calc_level mu nu <? calc_level smu snu then []
            else if calc_level mu nu <=? aim then map (cons (mu, nu)) (raw f (aim - calc_level mu nu) mu nu) else []) ->
            exists r, s = (mu, nu) :: r).
  { intros mu nu s H. destruct (_ <? _); [destruct H|]. destruct (_ <=? _); [|destruct H].
    apply in_map_iff in H as (r & <- & _). exists r. reflexivity. }
  apply flat_map_nodup; [apply seq_NoDup| |].
  - intros mu _. apply flat_map_nodup; [apply seq_NoDup| |].
    + intros nu _. destruct (_ <? _); [constructor|]. destruct (_ <=? _); [|constructor].
      apply FinFun.Injective_map_NoDup; [intros a b; congruence|apply IH].
    + intros nu nu' z _ _ H1 H2. apply Hin in H1 as [r ->]. apply Hin in H2 as [r' E]. congruence.
  - intros mu mu' z _ _ H1 H2. apply in_flat_map in H1 as (nu & _ & H1). apply in_flat_map in H2 as (nu' & _ & H2).
    apply Hin in H1 as [r ->]. apply Hin in H2 as [r' E]. congruence.
Qed.

Section Sorted.
Variable sort : comb -> comb.
Hypothesis Hsort : sorts_by_nu sort.

Fixpoint assemble (s : comb) : comb :=
  match s with [] => [] | p :: r => sort (assemble r ++ [p]) end.

Lemma assemble_perm s : Permutation s (assemble s).
Proof using Hsort.
  induction s as [|p r IH]; cbn; [constructor|].
  rewrite <- (proj1 (Hsort _)). rewrite <- Permutation_cons_append. constructor. exact IH.
Qed.

Lemma assemble_desc s : descending (assemble s).
Proof using Hsort.
  destruct s as [|p r]; cbn; [|apply Hsort]. intros i j p q _ H. destruct i; discriminate.
Qed.

Lemma flat_map_map {A B C} (g : B -> C) (f : A -> list B) l : map g (flat_map f l) = flat_map (fun x => map g (f x)) l.
Proof. induction l; cbn; [reflexivity|]. rewrite map_app, IHl. reflexivity. Qed.

Lemma schemes_raw f : forall aim smu snu, schemes sort f aim smu snu = map assemble (raw f aim smu snu).
Proof.
  induction f as [|f IH]; intros aim smu snu; cbn [schemes raw]; [reflexivity|].
  destruct (aim =? 0); [reflexivity|].
  rewrite flat_map_map. apply flat_map_ext. intros mu. rewrite flat_map_map. apply flat_map_ext. intros nu.
  destruct (_ <? _); [reflexivity|]. destruct (_ <=? _); [|reflexivity].
  rewrite IH, !map_map. reflexivity.
Qed.

Lemma all_schemes aim smu snu : get_all_schemes4lev sort aim smu snu = map assemble (raw (S aim) aim smu snu).
Proof. apply schemes_raw. Qed.

(** Every multiset has a climbing arrangement. *)
Fixpoint ins (p : moment) (s : comb) : comb :=
  match s with [] => [p] | q :: r => if moment_level p <=? moment_level q then p :: q :: r else q :: ins p r end.

Lemma ins_perm p s : Permutation (p :: s) (ins p s).
Proof.
  induction s as [|q r IH]; cbn; [reflexivity|]. destruct (_ <=? _); [reflexivity|].
  rewrite perm_swap. constructor. exact IH.
Qed.

Lemma ins_climbing p s : forall lo, climbing lo s -> lo <= moment_level p -> climbing lo (ins p s).
Proof.
  induction s as [|q r IH]; cbn; intros lo H Hp; [tauto|].
  destruct (Nat.leb_spec (moment_level p) (moment_level q)) as [L|L]; cbn; [tauto|].
  split; [tauto|]. apply IH; [tauto|lia].
Qed.

Definition arrange (m : comb) : comb := fold_right ins [] m.

Lemma arrange_perm m : Permutation m (arrange m).
Proof. induction m; cbn; [constructor|]. rewrite <- ins_perm. constructor. exact IHm. Qed.

Lemma arrange_climbing m lo : (forall p, In p m -> lo <= moment_level p) -> climbing lo (arrange m).
Proof.
  induction m as [|p m IH]; cbn; intros H; [exact I|]. apply ins_climbing; [apply IH|]; intros; apply H; tauto.
Qed.

Lemma ins_ins p q r : moment_level p = moment_level q ->
  exists a b, ins p (ins q r) = a ++ p :: q :: b /\ ins q (ins p r) = a ++ q :: p :: b.
Proof.
  intros E. induction r as [|x r (a & b & H1 & H2)]; cbn.
  - exists [], []. rewrite E, Nat.leb_refl. split; reflexivity.
  - rewrite <- E. destruct (Nat.leb_spec (moment_level p) (moment_level x)) as [L|L]; cbn.
    + rewrite <- E, Nat.leb_refl. exists [], (x :: r). split; reflexivity.
    + rewrite <- E. destruct (Nat.leb_spec (moment_level p) (moment_level x)) as [L'|L']; [lia|].
      exists (x :: a), b. rewrite H1, H2. split; reflexivity.
Qed.

Lemma climbing_unique s : forall s' lo lo', climbing lo s -> climbing lo' s' -> Permutation s s' ->
  (forall p q, In p s -> In q s -> moment_level p = moment_level q -> p = q) -> s = s'.
Proof.
  induction s as [|p r IH]; intros s' lo lo' H H' P U.
  - apply Permutation_nil in P. congruence.
  - destruct s' as [|q r']; [apply Permutation_sym, Permutation_nil in P; discriminate|].
    assert (E : p = q).
    { apply U; [left; reflexivity|apply (Permutation_in _ (Permutation_sym P)); left; reflexivity|].
      assert (A : moment_level p <= moment_level q).
      { apply (climbing_ge (p :: r) (moment_level p)); [cbn in *; split; [lia|tauto]|].
        apply (Permutation_in _ (Permutation_sym P)). left. reflexivity. }
      assert (B : moment_level q <= moment_level p).
      { apply (climbing_ge (q :: r') (moment_level q)); [cbn in *; split; [lia|tauto]|].
        apply (Permutation_in _ P). left. reflexivity. }
      lia. }
    subst q. f_equal. apply Permutation_cons_inv in P. cbn in H, H'.
    apply (IH r' _ _ (proj2 H) (proj2 H') P). intros a b Ha Hb. apply U; right; assumption.
Qed.

(** *** Soundness and completeness *)

Lemma schemes_sound aim smu snu c : In c (get_all_schemes4lev sort aim smu snu) ->
  total_level c = aim /\ descending c /\ forall p, In p c -> moment_level (smu, snu) <= moment_level p.
Proof using Hsort.
  rewrite all_schemes. intros H. apply in_map_iff in H as (s & <- & Hs). apply raw_in in Hs as [H1 H2]; [|lia].
  split; [rewrite <- H1; symmetry; apply total_perm, assemble_perm|]. split; [apply assemble_desc|].
  intros p Hp. apply (climbing_ge s); [exact H2|]. apply (Permutation_in _ (Permutation_sym (assemble_perm s))). exact Hp.
Qed.

Lemma schemes_complete aim smu snu m : total_level m = aim -> (forall p, In p m -> moment_level (smu, snu) <= moment_level p) ->
  exists c, In c (get_all_schemes4lev sort aim smu snu) /\ Permutation m c.
Proof using Hsort.
  intros H1 H2. exists (assemble (arrange m)). rewrite all_schemes. split.
  - apply in_map. apply raw_in; [lia|]. split; [|apply arrange_climbing, H2].
    rewrite <- H1. symmetry. apply total_perm, arrange_perm.
  - rewrite <- assemble_perm. apply arrange_perm.
Qed.

(** *** Multiplicity *)

Lemma lists_at_raw cs i m : lists_at (map assemble cs) i m <-> exists s, nth_error cs i = Some s /\ Permutation m s.
Proof using Hsort.
  unfold lists_at. split.
  - intros (c & H & P). rewrite nth_error_map in H. destruct (nth_error cs i) as [s|] eqn:E; [|discriminate].
    cbn in H. injection H as <-. exists s. split; [reflexivity|]. rewrite P. symmetry. apply assemble_perm.
  - intros (s & H & P). exists (assemble s). rewrite nth_error_map, H. split; [reflexivity|]. rewrite P. apply assemble_perm.
Qed.

Lemma nodup_index {A} (l : list A) i j x : NoDup l -> nth_error l i = Some x -> nth_error l j = Some x -> i = j.
Proof.
  intros N H1 H2. eapply (proj1 (NoDup_nth_error l)); [exact N| |congruence]. apply nth_error_Some. congruence.
Qed.

Lemma listed_once aim m : total_level m = aim -> (forall p q, In p m -> In q m -> moment_level p = moment_level q -> p = q) ->
  exists i, lists_at (get_all_schemes4lev sort aim 0 0) i m /\
  forall j, lists_at (get_all_schemes4lev sort aim 0 0) j m -> j = i.
Proof using Hsort.
  intros H U. destruct (schemes_complete aim 0 0 m H) as (c & Hc & P); [intros p _; apply moment_level_pos|].
  apply In_nth_error in Hc as [i Hi]. exists i. split; [exists c; auto|].
  intros j Hj. assert (Hi' : lists_at (get_all_schemes4lev sort aim 0 0) i m) by (exists c; auto).
  rewrite all_schemes in *. apply (proj1 (lists_at_raw _ _ _)) in Hj as (s & Hs & Ps). apply (proj1 (lists_at_raw _ _ _)) in Hi' as (s' & Hs' & Ps').
  assert (E : s' = s).
  { assert (G := nth_error_In _ _ Hs). assert (G' := nth_error_In _ _ Hs').
    apply raw_in in G; [|lia]. apply raw_in in G'; [|lia].
    apply (climbing_unique _ _ _ _ (proj2 G') (proj2 G)); [rewrite <- Ps; symmetry; exact Ps'|].
    intros p q Hp Hq. apply U; apply (Permutation_in _ (Permutation_sym Ps')); assumption. }
  subst s'. eapply nodup_index; [apply raw_nodup|eassumption|eassumption].
Qed.

Lemma two_arrangements m p q : In p m -> In q m -> p <> q -> moment_level p = moment_level q ->
  exists s s', s <> s' /\ Permutation m s /\ Permutation m s' /\ climbing 2 s /\ climbing 2 s'.
Proof.
  intros Hp Hq N E. apply in_split in Hp as (l1 & l2 & ->).
  assert (Hq' : In q (l1 ++ l2)). { apply in_app_or in Hq. cbn in Hq. apply in_or_app. intuition congruence. }
  apply in_split in Hq' as (k1 & k2 & Ek).
  assert (P : Permutation (l1 ++ p :: l2) (p :: q :: k1 ++ k2)).
  { rewrite <- Permutation_middle. constructor. rewrite Ek. rewrite <- Permutation_middle. reflexivity. }
  set (r := arrange (k1 ++ k2)).
  destruct (ins_ins p q r E) as (a & b & E1 & E2).
  assert (C : climbing 2 r) by (apply arrange_climbing; intros; apply moment_level_pos).
  exists (ins p (ins q r)), (ins q (ins p r)). repeat split.
  - rewrite E1, E2. intros X. apply app_inv_head in X. congruence.
  - rewrite P. rewrite <- !ins_perm. do 2 constructor. apply arrange_perm.
  - rewrite P. rewrite perm_swap, <- !ins_perm. do 2 constructor. apply arrange_perm.
  - do 2 (apply ins_climbing; [|apply moment_level_pos]). exact C.
  - do 2 (apply ins_climbing; [|apply moment_level_pos]). exact C.
Qed.

Lemma listed_twice aim m p q : total_level m = aim -> In p m -> In q m -> p <> q -> moment_level p = moment_level q ->
  exists i j, i <> j /\ lists_at (get_all_schemes4lev sort aim 0 0) i m /\ lists_at (get_all_schemes4lev sort aim 0 0) j m.
Proof using Hsort.
  intros H Hp Hq N E. destruct (two_arrangements m p q Hp Hq N E) as (s & s' & D & P & P' & C & C').
  assert (G : In s (raw (S aim) aim 0 0)) by (apply raw_in; [lia|]; split; [rewrite <- H; symmetry; apply total_perm, P|exact C]).
  assert (G' : In s' (raw (S aim) aim 0 0)) by (apply raw_in; [lia|]; split; [rewrite <- H; symmetry; apply total_perm, P'|exact C']).
  apply In_nth_error in G as [i Hi]. apply In_nth_error in G' as [j Hj].
  exists i, j. split; [intros ->; congruence|]. rewrite all_schemes. split; apply (proj2 (lists_at_raw _ _ _)); [exists s|exists s']; auto.
Qed.

(** *** The kept combinations *)

Definition raw_kept (L : Z) : list comb :=
  flat_map (fun ii => filter (fun s => is_kept (assemble s)) (raw (S ii) ii 0 0)) (seq 0 (Z.to_nat (L + 1))).

Lemma filter_map {A B} (g : B -> bool) (f : A -> B) l : filter g (map f l) = map f (filter (fun x => g (f x)) l).
Proof. induction l; cbn; [reflexivity|]. destruct (g (f a)); cbn; rewrite IHl; reflexivity. Qed.

Lemma build_raw L : build_combs sort L = map assemble (raw_kept L).
Proof.
  unfold build_combs, raw_kept. rewrite flat_map_map. apply flat_map_ext. intros ii.
  unfold get_contracted_combs. rewrite all_schemes. apply filter_map.
Qed.

Lemma raw_kept_in L s : In s (raw_kept L) <-> (Z.of_nat (total_level s) <= L)%Z /\ climbing 2 s /\ is_kept (assemble s) = true.
Proof.
  unfold raw_kept. rewrite in_flat_map. split.
  - intros (ii & Hii & H). apply filter_In in H as [H K]. apply raw_in in H as [H1 H2]; [|lia].
    apply in_seq in Hii. repeat split; [lia|exact H2|exact K].
  - intros (H1 & H2 & K). exists (total_level s). split; [apply in_seq; lia|]. apply filter_In. split; [|exact K].
    apply raw_in; [lia|]. split; [reflexivity|exact H2].
Qed.

Lemma raw_kept_nodup L : NoDup (raw_kept L).
Proof.
  apply flat_map_nodup; [apply seq_NoDup| |].
  - intros ii _. apply NoDup_filter, raw_nodup.
  - intros ii jj s _ _ H1 H2. apply filter_In in H1 as [H1 _]. apply filter_In in H2 as [H2 _].
    apply raw_in in H1; [|lia]. apply raw_in in H2; [|lia]. lia.
Qed.

Lemma build_in L c : In c (build_combs sort L) ->
  (Z.of_nat (total_level c) <= L)%Z /\ descending c /\ is_kept c = true.
Proof using Hsort.
  rewrite build_raw. intros H. apply in_map_iff in H as (s & <- & H). apply raw_kept_in in H as (H1 & _ & H3).
  rewrite <- (total_perm _ _ (assemble_perm s)). repeat split; [exact H1|apply assemble_desc|exact H3].
Qed.

Lemma nu_count_perm n c c' : Permutation c c' -> nu_count n c = nu_count n c'.
Proof.
  unfold nu_count. induction 1; cbn; try lia.
  - destruct (_ =? _); cbn; lia.
  - destruct (snd y =? n), (snd x =? n); reflexivity.
Qed.

Lemma fold_add l : forall a, fold_left Nat.add l a = a + list_sum l.
Proof. induction l as [|x l IH]; cbn; intros a; [rewrite lsum_nil; lia|]. rewrite IH, lsum_cons. lia. Qed.

(** The test without reference to positions. *)
Lemma kept_cases c : is_kept c = true ->
  (exists p, c = [p] /\ snd p = 0) \/
  (exists p r, c = p :: r /\ r <> [] /\ list_sum (map snd r) = snd p) \/
  (2 <= length c /\ forall q, In q c -> snd q <> 0 -> Nat.even (nu_count (snd q) c) = true).
Proof.
  destruct c as [|p [|q r]]; intros H; [discriminate| |].
  - left. exists p. split; [reflexivity|]. apply Nat.eqb_eq. exact H.
  - unfold is_kept in H. right. apply orb_true_iff in H as [H|H].
    + left. apply Nat.eqb_eq in H. rewrite fold_add in H. exists p, (q :: r). repeat split; [discriminate|exact H].
    + right. split; [cbn; lia|]. intros x Hx N. rewrite forallb_forall in H. specialize (H x Hx).
      apply orb_true_iff in H as [H|H]; [apply Nat.eqb_eq in H; contradiction|exact H].
Qed.

Lemma kept_pairs c : 2 <= length c -> (forall q, In q c -> snd q <> 0 -> Nat.even (nu_count (snd q) c) = true) -> is_kept c = true.
Proof.
  destruct c as [|p [|q r]]; intros L H; [cbn in L; lia|cbn in L; lia|].
  unfold is_kept. apply orb_true_iff. right. apply forallb_forall. intros x Hx.
  destruct (Nat.eqb_spec (snd x) 0) as [E|E]; [reflexivity|]. cbn [orb]. apply H; assumption.
Qed.

(** A combination kept with two different moments of one level is at level 18 or above. *)
Lemma total_split c : total_level c = 2 * length c + 4 * list_sum (map fst c) + list_sum (map snd c).
Proof. induction c as [|p c IH]; cbn [length map]; [reflexivity|]. rewrite total_cons, IH, !lsum_cons. unfold moment_level. lia. Qed.

Lemma in_sum (f : moment -> nat) x c : In x c -> f x <= list_sum (map f c).
Proof. induction c as [|y c IH]; intros H; [destruct H|]. cbn [map]. rewrite lsum_cons. destruct H as [<-|H]; [lia|]. specialize (IH H). lia. Qed.

Lemma count_sum n c : n * nu_count n c <= list_sum (map snd c).
Proof.
  unfold nu_count. induction c as [|y c IH]; cbn [filter map]; [cbn; lia|]. rewrite lsum_cons.
  destruct (Nat.eqb_spec (snd y) n) as [E|E]; cbn [length]; nia.
Qed.

Lemma count_pos n c p : In p c -> snd p = n -> 1 <= nu_count n c.
Proof.
  intros H E. unfold nu_count. destruct (filter _ c) as [|x l] eqn:F; [|cbn; lia].
  assert (X : In p (filter (fun q => snd q =? n) c)) by (apply filter_In; split; [exact H|apply Nat.eqb_eq, E]).
  rewrite F in X. destruct X.
Qed.

Lemma count_le_length n c p : In p c -> snd p <> n -> S (nu_count n c) <= length c.
Proof.
  intros H E. unfold nu_count. induction c as [|y c IH]; [destruct H|]. cbn [filter length]. destruct H as [->|H].
  - destruct (Nat.eqb_spec (snd p) n); [contradiction|]. pose proof (filter_length_le (fun q => snd q =? n) c). lia.
  - specialize (IH H). destruct (_ =? _); cbn [length]; lia.
Qed.

Lemma kept_repeat_18_aux c p q : is_kept c = true -> descending c -> In p c -> In q c ->
  moment_level p = moment_level q -> snd p < snd q -> 18 <= total_level c.
Proof.
  intros K D Hp Hq E N.
  assert (B : 4 <= snd q /\ 1 <= fst p) by (unfold moment_level in E; lia). destruct B as [B1 B2].
  rewrite total_split. pose proof (in_sum fst p c Hp) as S1.
  apply kept_cases in K as [(x & -> & Hx)|[(x & r & -> & Hr & Hs)|[L K]]].
  - cbn in Hp, Hq. destruct Hp as [<-|[]], Hq as [<-|[]]. lia.
  - assert (Q : snd q <= snd x).
    { apply In_nth_error in Hq as [[|k] Hk]; [cbn in Hk; injection Hk as ->; lia|].
      apply (D 0 (S k) x q); [lia|reflexivity|exact Hk]. }
    cbn [map length] in *. rewrite !lsum_cons in *.
    destruct r as [|y [|z r']]; [congruence| |cbn [length]; lia].
    cbn [map] in Hs. rewrite lsum_cons, lsum_nil in Hs. assert (Hy : snd y = snd x) by lia.
    cbn in Hp, Hq. exfalso. destruct Hp as [<-|[<-|[]]], Hq as [<-|[<-|[]]]; lia.
  - assert (K' := K q Hq ltac:(lia)). pose proof (count_pos (snd q) c q Hq eq_refl) as P.
    assert (P2 : 2 <= nu_count (snd q) c). { destruct (nu_count (snd q) c) as [|[|k]]; [lia|discriminate|lia]. }
    pose proof (count_sum (snd q) c) as S2. pose proof (count_le_length (snd q) c p Hp ltac:(lia)) as S3. nia.
Qed.

Lemma kept_repeat_18 c p q : is_kept c = true -> descending c -> In p c -> In q c -> p <> q ->
  moment_level p = moment_level q -> 18 <= total_level c.
Proof.
  intros K D Hp Hq N E. destruct (lt_eq_lt_dec (snd p) (snd q)) as [[H|H]|H].
  - apply (kept_repeat_18_aux c p q); assumption.
  - exfalso. apply N. destruct p, q. unfold moment_level in E. cbn in *. f_equal; lia.
  - apply (kept_repeat_18_aux c q p); try assumption. symmetry; exact E.
Qed.

Lemma injective_or_not (s : comb) :
  (forall p q, In p s -> In q s -> moment_level p = moment_level q -> p = q) \/
  exists p q, In p s /\ In q s /\ p <> q /\ moment_level p = moment_level q.
Proof.
  assert (D : forall p q : moment, {p = q} + {p <> q}) by (decide equality; apply Nat.eq_dec).
  set (bad := fun p => existsb (fun q => (moment_level p =? moment_level q) && if D p q then false else true) s).
  destruct (existsb bad s) eqn:E.
  - right. apply existsb_exists in E as (p & Hp & H). apply existsb_exists in H as (q & Hq & H).
    apply andb_true_iff in H as [H1 H2]. apply Nat.eqb_eq in H1. destruct (D p q); [discriminate|].
    exists p, q. auto.
  - left. intros p q Hp Hq L. destruct (D p q) as [e|n]; [exact e|]. exfalso.
    assert (X : existsb bad s = true); [|congruence].
    apply existsb_exists. exists p. split; [exact Hp|]. apply existsb_exists. exists q. split; [exact Hq|].
    rewrite (proj2 (Nat.eqb_eq _ _) L). destruct (D p q); [contradiction|reflexivity].
Qed.

Lemma build_repeats L : repeats (build_combs sort L) <-> (18 <= L)%Z.
Proof using Hsort.
  rewrite build_raw. split.
  - intros (i & j & m & N & H1 & H2). apply (proj1 (lists_at_raw _ _ _)) in H1 as (s & Hs & Ps). apply (proj1 (lists_at_raw _ _ _)) in H2 as (s' & Hs' & Ps').
    assert (G := nth_error_In _ _ Hs). assert (G' := nth_error_In _ _ Hs').
    apply raw_kept_in in G as (T & C & K). apply raw_kept_in in G' as (T' & C' & K').
    destruct (injective_or_not s) as [U|(p & q & Hp & Hq & D & E)].
    + exfalso. apply N. assert (X : s = s') by (apply (climbing_unique _ _ _ _ C C'); [rewrite <- Ps; exact Ps'|exact U]).
      subst s'. eapply nodup_index; [apply raw_kept_nodup|eassumption|eassumption].
    + pose proof (assemble_perm s) as PA.
      assert (X : 18 <= total_level (assemble s)).
      { eapply (kept_repeat_18 _ p q); [exact K|apply assemble_desc| | |exact D|exact E]; apply (Permutation_in _ PA); assumption. }
      rewrite <- (total_perm _ _ PA) in X. lia.
  - intros HL. set (a := [(0, 4); (0, 4); (1, 0)]). set (b := [(1, 0); (0, 4); (0, 4)]).
    assert (PAB : Permutation a b).
    { unfold a, b. apply (Permutation_trans (l' := [(0,4); (1,0); (0,4)])); [constructor; apply perm_swap|apply perm_swap]. }
    assert (KA : forall s, Permutation a s -> is_kept (assemble s) = true).
    { intros s P. assert (PA : Permutation a (assemble s)) by (rewrite P; apply assemble_perm).
      apply kept_pairs; [rewrite <- (Permutation_length PA); cbn; lia|].
      intros q Hq NZ. rewrite <- (nu_count_perm _ _ _ PA).
      apply (Permutation_in _ (Permutation_sym PA)) in Hq. cbn in Hq. destruct Hq as [<-|[<-|[<-|[]]]]; [reflexivity|reflexivity|cbn in NZ; lia]. }
    assert (Ia : In a (raw_kept L)). { apply raw_kept_in. split; [exact HL|]. split; [unfold a, b; cbn [climbing]; unfold moment_level; cbn [fst snd]; lia|apply KA; reflexivity]. }
    assert (Ib : In b (raw_kept L)). { apply raw_kept_in. split; [exact HL|]. split; [unfold a, b; cbn [climbing]; unfold moment_level; cbn [fst snd]; lia|apply KA; exact PAB]. }
    apply In_nth_error in Ia as [i Hi]. apply In_nth_error in Ib as [j Hj].
    exists i, j, a. split; [intros ->; rewrite Hi in Hj; discriminate|].
    split; apply (proj2 (lists_at_raw _ _ _)); [exists a|exists b]; auto.
Qed.

(** *** Contraction *)

Lemma contract_err e l : fold_left contract_step l (Err e) = Err e.
Proof. induction l; cbn; [reflexivity|exact IHl]. Qed.

Lemma contract_down l : forall d, list_sum l <= d -> fold_left contract_step l (Ok d) = Ok (d - list_sum l).
Proof.
  induction l as [|x l IH]; intros d H; cbn [fold_left].
  - rewrite lsum_nil, Nat.sub_0_r. reflexivity.
  - rewrite lsum_cons in *. unfold contract_step at 2. cbn [bind].
    destruct (Nat.leb_spec x d) as [L|L]; [|lia]. rewrite IH by lia. f_equal. lia.
Qed.

Fixpoint countn (n : nat) (l : list nat) : nat :=
  match l with [] => 0 | x :: r => (if x =? n then 1 else 0) + countn n r end.

Lemma nu_count_countn n c : nu_count n c = countn n (map snd c).
Proof. unfold nu_count. induction c as [|p c IH]; cbn; [reflexivity|]. destruct (_ =? _); cbn; lia. Qed.

Fixpoint sdesc (l : list nat) : Prop :=
  match l with [] => True | x :: r => (forall y, In y r -> y <= x) /\ sdesc r end.

Lemma countn_0 n l : (forall y, In y l -> y < n) -> countn n l = 0.
Proof.
  induction l as [|x l IH]; cbn; intros H; [reflexivity|]. rewrite IH by auto.
  destruct (Nat.eqb_spec x n) as [E|E]; [|reflexivity]. specialize (H x (or_introl eq_refl)). lia.
Qed.

Lemma contract_pairs k : forall l, length l <= k -> sdesc l -> (forall n, n <> 0 -> Nat.even (countn n l) = true) ->
  fold_left contract_step l (Ok 0) = Ok 0.
Proof.
  induction k as [|k IH]; intros l Hk Sd E; [destruct l; [reflexivity|cbn in Hk; lia]|].
  destruct l as [|x r]; [reflexivity|]. cbn [fold_left]. unfold contract_step at 2. cbn [bind].
  destruct x as [|x].
  - cbn. apply IH; [cbn in Hk; lia|apply Sd|]. intros n N. specialize (E n N). cbn in E. destruct n; [lia|exact E].
  - cbn [Nat.leb Nat.eqb]. destruct r as [|y r].
    + specialize (E (S x) ltac:(lia)). cbn in E. rewrite Nat.eqb_refl in E. discriminate.
    + assert (y = S x).
      { destruct Sd as [S1 S2]. pose proof (S1 y (or_introl eq_refl)) as Hy.
        destruct (Nat.eq_dec y (S x)) as [e|e]; [exact e|]. exfalso.
        specialize (E (S x) ltac:(lia)). change (countn (S x) (S x :: y :: r)) with ((if S x =? S x then 1 else 0) + countn (S x) (y :: r)) in E.
        rewrite Nat.eqb_refl, countn_0 in E; [discriminate|].
        intros z Hz. destruct S2 as [S2 _]. cbn in Hz. destruct Hz as [<-|Hz]; [lia|]. specialize (S2 z Hz). lia. }
      subst y. cbn [fold_left]. unfold contract_step at 2. cbn [bind]. rewrite Nat.leb_refl, Nat.sub_diag.
      apply IH; [cbn in Hk; lia|apply Sd|]. intros n N. specialize (E n N). cbn [countn] in E. destruct (S x =? n); [|exact E]. exact E.
Qed.

Lemma descending_sdesc c : descending c -> sdesc (map snd c).
Proof.
  induction c as [|p c IH]; intros D; cbn [map sdesc]; [exact I|]. split.
  - intros y Hy. apply in_map_iff in Hy as (q & <- & Hq). apply In_nth_error in Hq as [k Hk].
    apply (D 0 (S k) p q); [lia|reflexivity|exact Hk].
  - apply IH. intros i j a b Hij Ha Hb. apply (D (S i) (S j)); [lia|exact Ha|exact Hb].
Qed.

Lemma countn_in n l : countn n l <> 0 -> In n l.
Proof.
  induction l as [|x l IH]; cbn; intros H; [lia|]. destruct (Nat.eqb_spec x n); [left; assumption|right; apply IH; lia].
Qed.

Lemma kept_contracts c : is_kept c = true -> descending c -> contract_dims c = Ok 0.
Proof.
  intros K D. apply kept_cases in K as [(p & -> & Hp)|[(p & r & -> & Hr & Hs)|[L K]]]; unfold contract_dims.
  - cbn. rewrite Hp. reflexivity.
  - cbn [map fold_left]. unfold contract_step at 2. cbn [bind].
    destruct (Nat.leb_spec (snd p) 0) as [H|H].
    + replace (0 - snd p) with (snd p) by lia. rewrite contract_down by lia. f_equal. lia.
    + cbn [Nat.eqb]. rewrite contract_down by lia. f_equal. lia.
  - apply (contract_pairs (length (map snd c))); [lia|apply descending_sdesc, D|].
    intros n N. destruct (Nat.eq_dec (countn n (map snd c)) 0) as [Z0|Z0]; [rewrite Z0; reflexivity|].
    apply countn_in in Z0. apply in_map_iff in Z0 as (q & <- & Hq). rewrite <- nu_count_countn. apply K; [exact Hq|exact N].
Qed.

(** *** Number of channels *)

Lemma single_kept L mu : (2 + 4 * Z.of_nat mu <= L)%Z -> exists c, In c (build_combs sort L) /\ In (mu, 0) c.
Proof using Hsort.
  intros H. exists (assemble [(mu, 0)]). rewrite build_raw.
  assert (PA : Permutation [(mu, 0)] (assemble [(mu, 0)])) by apply assemble_perm.
  assert (E : assemble [(mu, 0)] = [(mu, 0)]) by (apply Permutation_length_1_inv; exact PA).
  split; [|rewrite E; left; reflexivity]. apply in_map. apply raw_kept_in. rewrite E.
  repeat split; [|unfold moment_level; cbn [fst snd]; lia]. unfold total_level. cbn [map]. rewrite lsum_cons, lsum_nil. unfold moment_level. cbn [fst snd]. lia.
Qed.

Lemma mu_bound L c p : In c (build_combs sort L) -> In p c -> (2 + 4 * Z.of_nat (fst p) <= L)%Z.
Proof using Hsort.
  intros H Hp. apply build_in in H as (H & _ & _). rewrite total_split in H.
  pose proof (in_sum fst p c Hp). assert (length c <> 0) by (destruct c; [destruct Hp|discriminate]). lia.
Qed.

Lemma nmus_values L : (2 <= L)%Z -> forall mu, ((exists c p, In c (build_combs sort L) /\ In p c /\ fst p = mu) <-> (Z.of_nat mu < nmus L)%Z).
Proof using Hsort.
  intros HL mu. unfold nmus. rewrite Z.quot_div_nonneg by lia. split.
  - intros (c & p & Hc & Hp & <-). pose proof (mu_bound L c p Hc Hp).
    assert (Z.of_nat (fst p) <= (L - 2) / 4)%Z by (apply Z.div_le_lower_bound; lia). lia.
  - intros H. destruct (single_kept L mu) as (c & Hc & Hp).
    + pose proof (Z.mul_div_le (L - 2) 4 ltac:(lia)). lia.
    + exists c, (mu, 0). auto.
Qed.

Lemma nmus_check_eq L : (2 <= L)%Z -> Z.of_nat (nmus_check sort L) = nmus L.
Proof using Hsort.
  intros HL. unfold nmus_check. set (l := flat_map (map fst) (build_combs sort L)).
  assert (N : (0 <= nmus L)%Z) by (unfold nmus; rewrite Z.quot_div_nonneg by lia; pose proof (Z.div_pos (L - 2) 4); lia).
  assert (P : Permutation (nodup Nat.eq_dec l) (seq 0 (Z.to_nat (nmus L)))).
  { apply NoDup_Permutation; [apply NoDup_nodup|apply seq_NoDup|]. intros mu. rewrite nodup_In, in_seq.
    unfold l. rewrite in_flat_map. rewrite <- (nmus_values L HL mu) || idtac.
    split.
    - intros (c & Hc & H). apply in_map_iff in H as (p & E & Hp).
      assert (X : (Z.of_nat mu < nmus L)%Z) by (apply (nmus_values L HL); exists c, p; auto). lia.
    - intros H. assert (X : (Z.of_nat mu < nmus L)%Z) by lia. apply (nmus_values L HL) in X as (c & p & Hc & Hp & E).
      exists c. split; [exact Hc|]. apply in_map_iff. exists p. auto. }
  rewrite (Permutation_length P), seq_length. lia.
Qed.

Lemma below_two L : (L < 2)%Z -> build_combs sort L = [].
Proof using Hsort.
  intros H. destruct (build_combs sort L) as [|c l] eqn:E; [reflexivity|]. exfalso.
  assert (I : In c (build_combs sort L)) by (rewrite E; left; reflexivity).
  apply build_in in I as (I & _ & K). destruct c as [|p c]; [discriminate|]. rewrite total_cons in I. pose proof (moment_level_pos p). lia.
Qed.

End Sorted.

(** A sort that meets the contract. *)
Fixpoint sins (p : moment) (c : comb) : comb :=
  match c with [] => [p] | q :: r => if snd q <=? snd p then p :: q :: r else q :: sins p r end.
Definition ssort (c : comb) : comb := fold_right sins [] c.

Lemma sins_perm p c : Permutation (p :: c) (sins p c).
Proof. induction c as [|q r IH]; cbn; [reflexivity|]. destruct (_ <=? _); [reflexivity|]. rewrite perm_swap. constructor. exact IH. Qed.

Lemma sins_desc p c : sdesc (map snd c) -> sdesc (map snd (sins p c)).
Proof.
  induction c as [|q r IH]; cbn; [tauto|]. intros [H1 H2]. destruct (Nat.leb_spec (snd q) (snd p)) as [L|L]; cbn.
  - split; [|tauto]. intros y [<-|Hy]; [exact L|]. specialize (H1 y Hy). lia.
  - split; [|apply IH, H2]. intros y Hy. apply in_map_iff in Hy as (z & <- & Hz).
    apply (Permutation_in _ (Permutation_sym (sins_perm p r))) in Hz. destruct Hz as [<-|Hz]; [lia|]. apply H1, in_map, Hz.
Qed.

Lemma sdesc_descending c : sdesc (map snd c) -> descending c.
Proof.
  induction c as [|x c IH]; intros H i j p q Hij Hp Hq; [destruct i; discriminate|]. cbn in H. destruct H as [H1 H2].
  destruct j as [|j]; [lia|]. destruct i as [|i]; cbn in Hp, Hq.
  - injection Hp as <-. apply H1, in_map. apply nth_error_In in Hq. exact Hq.
  - apply (IH H2 i j); [lia|exact Hp|exact Hq].
Qed.

Lemma ssort_contract : sorts_by_nu ssort.
Proof.
  intros c. split.
  - induction c as [|p c IH]; cbn; [constructor|]. rewrite <- sins_perm. constructor. exact IH.
  - apply sdesc_descending. induction c as [|p c IH]; cbn; [exact I|]. apply sins_desc, IH.
Qed.

(** Not every combination that multiplies out to a scalar is kept. *)
Definition missed_comb : comb := [(0, 3); (0, 3); (0, 2); (0, 1); (0, 1)].

Lemma missed sort : sorts_by_nu sort -> exists c, In c (get_all_schemes4lev sort 20 0 0) /\ Permutation missed_comb c /\
  contract_dims c = Ok 0 /\ is_kept c = false.
Proof.
  intros Hs. destruct (schemes_complete sort Hs 20 0 0 missed_comb) as (c & Hc & P); [reflexivity|intros; apply moment_level_pos|].
  exists c. split; [exact Hc|]. split; [exact P|].
  assert (E : c = missed_comb).
  { apply schemes_sound in Hc as (_ & D & _); [|exact Hs].
    assert (F : forall p, In p c -> fst p = 0).
    { intros p Hp. apply (Permutation_in _ (Permutation_sym P)) in Hp. cbn in Hp. intuition (subst; reflexivity). }
    assert (U : forall l l' : comb, Permutation l l' -> (forall p, In p l' -> fst p = 0) -> sdesc (map snd l) -> sdesc (map snd l') -> l' = l).
    { induction l as [|x l IH]; intros l' Pl Z0 S1 S2; [apply Permutation_nil in Pl; exact Pl|].
      destruct l' as [|y l']; [apply Permutation_sym, Permutation_nil in Pl; discriminate|].
      assert (x = y).
      { assert (A : In y (x :: l)) by (apply (Permutation_in _ (Permutation_sym Pl)); left; reflexivity).
        assert (B : In x (y :: l')) by (apply (Permutation_in _ Pl); left; reflexivity).
        pose proof (Z0 y (or_introl eq_refl)). pose proof (Z0 x B).
        cbn in S1, S2. destruct S1 as [S1 _], S2 as [S2 _].
        assert (snd x = snd y).
        { destruct A as [->|A]; [reflexivity|]. destruct B as [->|B]; [reflexivity|].
          specialize (S1 (snd y) (in_map snd _ _ A)). specialize (S2 (snd x) (in_map snd _ _ B)). lia. }
        destruct x, y. cbn in *. congruence. }
      subst y. f_equal. apply IH; [apply Permutation_cons_inv in Pl; exact Pl|intros; apply Z0; right; assumption|apply S1|apply S2]. }
    apply U; [exact P|exact F|cbn; intuition lia|apply descending_sdesc, D]. }
  subst c. split; reflexivity.
Qed.

Lemma basis_contracts sort : sorts_by_nu sort -> forall L c, In c (build_combs sort L) -> contract_dims c = Ok 0.
Proof.
  intros Hs L c H. apply build_in in H as (_ & D & K); [|exact Hs]. apply kept_contracts; assumption.
Qed.

Lemma below_two_all sort : sorts_by_nu sort -> forall L, (L < 2)%Z ->
  build_combs sort L = [] /\ nmus_check sort L = 0 /\ ((-2 < L)%Z -> nmus L = 1%Z).
Proof.
  intros Hs L H. assert (E := below_two sort Hs L H). split; [exact E|]. split.
  - unfold nmus_check. rewrite E. reflexivity.
  - intros H'. assert (C : L = (-1)%Z \/ L = 0%Z \/ L = 1%Z) by lia. destruct C as [->|[->| ->]]; reflexivity.
Qed.
