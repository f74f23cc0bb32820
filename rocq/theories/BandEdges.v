(** Proofs for [BandProps]: the extremal levels and the lists sharing them. *)
From Coq Require Import QArith Qround Qabs Lqa Sorted.
From Verif Require Import Text TextProofs DataModel BandModel BandSpec BandProofs.
Open Scope nat_scope.
Open Scope list_scope.

(** ** The order of the scan *)
Lemma numbered_sorted {A} (l : list A) : StronglySorted lt (map fst (numbered l)).
Proof.
  unfold numbered. assert (G : forall k, StronglySorted lt (map fst (combine (seq k (List.length l)) l)) /\ Forall (fun i => k <= i) (map fst (combine (seq k (List.length l)) l))).
  { induction l as [|x l IH]; intros k; cbn [List.length seq combine map fst]; [split; constructor|]. destruct (IH (S k)) as [I1 I2]. split.
    - constructor; [exact I1|]. eapply Forall_impl; [|exact I2]. cbn. intros. lia.
    - constructor; [lia|]. eapply Forall_impl; [|exact I2]. cbn. intros. lia. }
  apply G.
Qed.
Lemma sorted_app {A} (R : A -> A -> Prop) l1 l2 : StronglySorted R l1 -> StronglySorted R l2 -> (forall x y, In x l1 -> In y l2 -> R x y) -> StronglySorted R (l1 ++ l2).
Proof.
  induction l1 as [|x l1 IH]; cbn; [auto|]. intros A1 A2 H. inversion A1; subst. constructor; [apply IH; auto|].
  apply Forall_app. split; [assumption|]. apply Forall_forall. auto.
Qed.
Definition entry_before (p q : nat * nat * Q) : Prop :=
  fst (fst p) < fst (fst q) \/ fst (fst p) = fst (fst q) /\ snd (fst p) < snd (fst q).
Lemma entries_sorted a : StronglySorted entry_before (entries a).
Proof.
  unfold entries. pose proof (numbered_sorted a) as H. induction (numbered a) as [|[i r] l IH]; cbn [flat_map map fst snd] in *; [constructor|].
  inversion H as [|? ? H1 H2]; subst. apply sorted_app.
  - pose proof (numbered_sorted r) as N. induction (numbered r) as [|[j x] m IHm]; cbn in *; [constructor|]. inversion N as [|? ? N1 N2]; subst. constructor; [auto|].
    apply Forall_forall. intros q I. apply in_map_iff in I. destruct I as [[j' x'] [<- I]]. right. cbn. split; [reflexivity|].
    rewrite Forall_forall in N2. apply N2. apply in_map_iff. now exists (j', x').
  - auto.
  - intros p q I J. apply in_map_iff in I. destruct I as [[j x] [<- I]]. apply in_flat_map in J. destruct J as [[i' r'] [J J']].
    apply in_map_iff in J'. destruct J' as [[j' x'] [<- J']]. left. cbn. rewrite Forall_forall in H2. apply H2. apply in_map_iff. now exists (i', r').
Qed.
Lemma positions_sorted t : StronglySorted (fun p q => before (fst p) (fst q)) (positions t).
Proof.
  unfold positions. cbn [flat_map]. rewrite app_nil_r.
  assert (G : forall s, StronglySorted (fun p q => before (fst p) (fst q)) (map (fun p => (s, fst (fst p) + 1, snd (fst p) + 1, snd p)) (entries (rows t s)))).
  { intros s. pose proof (entries_sorted (rows t s)) as H. induction (entries (rows t s)) as [|[[i j] x] l IH]; cbn; [constructor|]. inversion H as [|? ? H1 H2]; subst.
    constructor; [auto|]. apply Forall_forall. intros q I. apply in_map_iff in I. destruct I as [[[i' j'] x'] [<- I]]. rewrite Forall_forall in H2. specialize (H2 _ I).
    unfold entry_before in H2. cbn in *. right. split; [reflexivity|]. lia. }
  apply sorted_app; [apply G|apply G|]. intros p q I J. apply in_map_iff in I. destruct I as [p' [<- _]]. apply in_map_iff in J. destruct J as [q' [<- _]]. left. auto.
Qed.

(** ** Extremal levels *)
Lemma min_exists (l : list (spin * nat * nat * Q)) : l <> [] -> exists p, In p l /\ forall q, In q l -> (snd p <= snd q)%Q.
Proof.
  induction l as [|p l IH]; [contradiction|]. intros _. destruct l as [|p' l'].
  - exists p. split; [now left|]. intros q [<-|[]]. apply Qle_refl.
  - destruct IH as [m [I M]]; [discriminate|]. destruct (Qlt_le_dec (snd p) (snd m)) as [L|L].
    + exists p. split; [now left|]. intros q [<-|J]; [apply Qle_refl|]. apply Qle_trans with (snd m); [lra|auto].
    + exists m. split; [now right|]. intros q [<-|J]; auto.
Qed.
Lemma max_exists (l : list (spin * nat * nat * Q)) : l <> [] -> exists p, In p l /\ forall q, In q l -> (snd q <= snd p)%Q.
Proof.
  induction l as [|p l IH]; [contradiction|]. intros _. destruct l as [|p' l'].
  - exists p. split; [now left|]. intros q [<-|[]]. apply Qle_refl.
  - destruct IH as [m [I M]]; [discriminate|]. destruct (Qlt_le_dec (snd m) (snd p)) as [L|L].
    + exists p. split; [now left|]. intros q [<-|J]; [apply Qle_refl|]. apply Qle_trans with (snd m); [auto|lra].
    + exists m. split; [now right|]. intros q [<-|J]; auto.
Qed.

Definition above (t : table) (ef : Q) := filter (fun p : spin * nat * nat * Q => Qle_bool ef (snd p)) (positions t).
Definition below (t : table) (ef : Q) := filter (fun p : spin * nat * nat * Q => Qle_bool (snd p) ef) (positions t).
Lemma in_above t ef s k b x : In (s, k, b, x) (above t ef) <-> eigenvalue t s k b x /\ (ef <= x)%Q.
Proof. unfold above. rewrite filter_In, in_positions. cbn. now rewrite Qle_bool_iff. Qed.
Lemma in_below t ef s k b x : In (s, k, b, x) (below t ef) <-> eigenvalue t s k b x /\ (x <= ef)%Q.
Proof. unfold below. rewrite filter_In, in_positions. cbn. now rewrite Qle_bool_iff. Qed.

Lemma round4_idem2 x : (round4 (round4 x) <= round4 x)%Q /\ (round4 x <= round4 (round4 x))%Q.
Proof. split; apply Qle_lteq; right; [|symmetry]; apply round4_idem. Qed.
Definition scan_up := scan_all (spin * nat * nat) Qle Qltb Qle_refl Qle_trans
  (fun x y H => Qlt_le_weak _ _ (proj1 (Qltb_lt x y) H)) Qltb_ge round4_mono round4_idem2.
Lemma ge_trans x y z : (y <= x)%Q -> (z <= y)%Q -> (z <= x)%Q.
Proof. intros. lra. Qed.
Definition scan_down := scan_all (spin * nat * nat) (fun x y => Qle y x) (fun x y => Qltb y x) Qle_refl ge_trans
  (fun x y H => Qlt_le_weak _ _ (proj1 (Qltb_lt y x) H)) (fun x y => Qltb_ge y x) (fun x y => round4_mono y x)
  (fun x => conj (proj2 (round4_idem2 x)) (proj1 (round4_idem2 x))).

Lemma first_up l : Forall (fun p => (round4 (snd p) <= snd p)%Q) l -> first_of (spin * nat * nat) Qltb l (fold_left (step _ Qltb) l None).
Proof.
  apply (scan_first (spin * nat * nat) Qle Qltb Qle_refl Qle_trans (fun x y H => Qlt_le_weak _ _ (proj1 (Qltb_lt x y) H)) Qltb_ge round4_mono round4_idem2).
  intros x y z. rewrite !Qltb_lt. intros. lra.
Qed.
Lemma first_down l : Forall (fun p => (snd p <= round4 (snd p))%Q) l -> first_of (spin * nat * nat) (fun x y => Qltb y x) l (fold_left (step _ (fun x y => Qltb y x)) l None).
Proof.
  apply (scan_first (spin * nat * nat) (fun x y => Qle y x) (fun x y => Qltb y x) Qle_refl ge_trans
  (fun x y H => Qlt_le_weak _ _ (proj1 (Qltb_lt y x) H)) (fun x y => Qltb_ge y x) (fun x y => round4_mono y x)
  (fun x => conj (proj2 (round4_idem2 x)) (proj1 (round4_idem2 x)))).
  intros x y z. rewrite !Qltb_lt. intros. lra.
Qed.

Lemma cbm_found t ef : (exists s k b x, eigenvalue t s k b x /\ (ef <= x)%Q) ->
  exists s k b x m, cbm_scan t ef = (Some (round4 x), k, b, Some s) /\ eigenvalue t s k b x /\ (ef <= x)%Q /\ lowest_above t ef m /\ (round4 x == round4 m)%Q.
Proof.
  intros (s0 & k0 & b0 & x0 & H0). apply in_above in H0. rewrite cbm_scan_eq. fold (above t ef). pose proof (scan_up (above t ef)) as G.
  destruct (min_exists (above t ef)) as [[[[s1 k1] b1] m] [I M]]; [intros E; rewrite E in H0; destruct H0|].
  destruct (fold_left _ _ None) as [[e [[s k] b]]|]; [|unfold good in G; rewrite G in H0; destruct H0].
  destruct G as [[x [J ->]] G]. exists s, k, b, x, m. split; [reflexivity|]. pose proof (M _ J) as LE. cbn in LE.
  apply in_above in J. split; [tauto|]. split; [tauto|]. split.
  - apply in_above in I. split; [exists s1, k1, b1; tauto|]. split; [tauto|]. intros s' k' b' x' E L. apply (M (s', k', b', x')). now apply in_above.
  - apply Qle_antisym; [exact (G _ _ I)|now apply round4_mono].
Qed.
Lemma vbm_found t ef : (exists s k b x, eigenvalue t s k b x /\ (x <= ef)%Q) ->
  exists s k b x m, vbm_scan t ef = (Some (round4 x), k, b, Some s) /\ eigenvalue t s k b x /\ (x <= ef)%Q /\ highest_below t ef m /\ (round4 x == round4 m)%Q.
Proof.
  intros (s0 & k0 & b0 & x0 & H0). apply in_below in H0. rewrite vbm_scan_eq. fold (below t ef). pose proof (scan_down (below t ef)) as G.
  destruct (max_exists (below t ef)) as [[[[s1 k1] b1] m] [I M]]; [intros E; rewrite E in H0; destruct H0|].
  destruct (fold_left _ _ None) as [[e [[s k] b]]|]; [|unfold good in G; rewrite G in H0; destruct H0].
  destruct G as [[x [J ->]] G]. exists s, k, b, x, m. split; [reflexivity|]. pose proof (M _ J) as LE. cbn in LE.
  apply in_below in J. split; [tauto|]. split; [tauto|]. split.
  - apply in_below in I. split; [exists s1, k1, b1; tauto|]. split; [tauto|]. intros s' k' b' x' E L. apply (M (s', k', b', x')). now apply in_below.
  - apply Qle_antisym; [now apply round4_mono|exact (G _ _ I)].
Qed.

Lemma cbm_none t ef : (forall s k b x, eigenvalue t s k b x -> (x < ef)%Q) -> cbm_scan t ef = no_best.
Proof.
  intros H. rewrite cbm_scan_eq. fold (above t ef). destruct (above t ef) as [|[[[s k] b] x] l] eqn:E; [reflexivity|]. exfalso.
  assert (I : In (s, k, b, x) (above t ef)) by (rewrite E; now left). apply in_above in I. specialize (H s k b x). destruct I as [I L]. specialize (H I). lra.
Qed.
Lemma vbm_none t ef : (forall s k b x, eigenvalue t s k b x -> (ef < x)%Q) -> vbm_scan t ef = no_best.
Proof.
  intros H. rewrite vbm_scan_eq. fold (below t ef). destruct (below t ef) as [|[[[s k] b] x] l] eqn:E; [reflexivity|]. exfalso.
  assert (I : In (s, k, b, x) (below t ef)) by (rewrite E; now left). apply in_below in I. specialize (H s k b x). destruct I as [I L]. specialize (H I). lra.
Qed.

Lemma four_exact t s k b x : four_decimals t -> eigenvalue t s k b x -> (round4 x == x)%Q.
Proof. intros D E. destruct (D s k b x E) as [n H]. now apply round4_exact with n. Qed.

Lemma filter_sorted {A} (R : A -> A -> Prop) p l : StronglySorted R l -> StronglySorted R (filter p l).
Proof.
  induction 1 as [|x l H IH F]; cbn; [constructor|]. destruct (p x); [|exact IH]. constructor; [exact IH|].
  apply Forall_forall. intros y I. apply filter_In in I. rewrite Forall_forall in F. now apply F.
Qed.
Lemma sorted_split {A} (R : A -> A -> Prop) l1 x l2 y : StronglySorted R (l1 ++ x :: l2) -> (forall a b, R a b -> ~ R b a) -> In y (l1 ++ x :: l2) -> R y x -> In y l1.
Proof.
  induction l1 as [|a l1 IH]; cbn; intros H N I L.
  - inversion H as [|? ? H1 H2]; subst. destruct I as [->|I]; [exfalso; now apply (N y y)|]. rewrite Forall_forall in H2. exfalso. apply (N y x); auto.
  - inversion H; subst. destruct I as [I|I]; [now left|]. right. auto.
Qed.
Lemma before_asym a b : before a b -> ~ before b a.
Proof. destruct a as [[s k] b0], b as [[s' k'] b']. unfold before. intuition (subst; try discriminate; try lia). Qed.

Lemma cbm_first t ef s k b e : four_decimals t -> cbm_scan t ef = (Some e, k, b, Some s) ->
  (exists x, eigenvalue t s k b x /\ (x == e)%Q) /\
  forall s' k' b' x, eigenvalue t s' k' b' x -> (ef <= x)%Q -> before (s', k', b') (s, k, b) -> (e < x)%Q.
Proof.
  intros D. rewrite cbm_scan_eq. fold (above t ef).
  assert (X : Forall (fun p => (round4 (snd p) <= snd p)%Q) (above t ef)).
  { apply Forall_forall. intros [[[s' k'] b'] x'] I. apply in_above in I. cbn. apply Qle_lteq. right. apply (four_exact t s' k' b'); tauto. }
  pose proof (first_up _ X) as G. destruct (fold_left _ _ None) as [[e' [[s' k'] b']]|]; [|discriminate]. cbn [rep]. intros E. injection E as -> -> -> ->.
  destruct G as (l1 & x & l2 & E & -> & G). assert (I : In (s, k, b, x) (above t ef)) by (rewrite E; apply in_app_iff; right; now left).
  apply in_above in I. pose proof (four_exact t s k b x D (proj1 I)) as R. split; [exists x; split; [tauto|now symmetry]|].
  intros s' k' b' y J L B. assert (J' : In (s', k', b', y) l1).
  { apply sorted_split with (R := fun p q => before (fst p) (fst q)) (x := (s, k, b, x)) (l2 := l2).
    - rewrite <- E. apply filter_sorted. apply positions_sorted.
    - intros p q. apply before_asym.
    - rewrite <- E. now apply in_above.
    - exact B. }
  specialize (G _ _ J'). apply Qltb_lt in G. lra.
Qed.
Lemma vbm_first t ef s k b e : four_decimals t -> vbm_scan t ef = (Some e, k, b, Some s) ->
  (exists x, eigenvalue t s k b x /\ (x == e)%Q) /\
  forall s' k' b' x, eigenvalue t s' k' b' x -> (x <= ef)%Q -> before (s', k', b') (s, k, b) -> (x < e)%Q.
Proof.
  intros D. rewrite vbm_scan_eq. fold (below t ef).
  assert (X : Forall (fun p => (snd p <= round4 (snd p))%Q) (below t ef)).
  { apply Forall_forall. intros [[[s' k'] b'] x'] I. apply in_below in I. cbn. apply Qle_lteq. right. symmetry. apply (four_exact t s' k' b'); tauto. }
  pose proof (first_down _ X) as G. destruct (fold_left _ _ None) as [[e' [[s' k'] b']]|]; [|discriminate]. cbn [rep]. intros E. injection E as -> -> -> ->.
  destruct G as (l1 & x & l2 & E & -> & G). assert (I : In (s, k, b, x) (below t ef)) by (rewrite E; apply in_app_iff; right; now left).
  apply in_below in I. pose proof (four_exact t s k b x D (proj1 I)) as R. split; [exists x; split; [tauto|now symmetry]|].
  intros s' k' b' y J L B. assert (J' : In (s', k', b', y) l1).
  { apply sorted_split with (R := fun p q => before (fst p) (fst q)) (x := (s, k, b, x)) (l2 := l2).
    - rewrite <- E. apply filter_sorted. apply positions_sorted.
    - intros p q. apply before_asym.
    - rewrite <- E. now apply in_below.
    - exact B. }
  specialize (G _ _ J'). apply Qltb_lt in G. lra.
Qed.
