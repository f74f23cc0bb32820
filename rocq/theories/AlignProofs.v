(** Lemmas about aligned arrays. *)
From Verif Require Import HeapModel HeapProofs AlignModel AlignSpec.
Open Scope Z_scope.

Lemma aligned_eq x : aligned x = 16 * ((x + 15) / 16).
Proof.
  unfold aligned. rewrite <- Z.ldiff_land. change 15 with (Z.ones 4) at 2. rewrite Z.ldiff_ones_r by lia.
  rewrite Z.shiftl_mul_pow2, Z.shiftr_div_pow2 by lia. change (2 ^ 4) with 16. lia.
Qed.
Lemma aligned_spec x : aligned x mod 16 = 0 /\ x <= aligned x <= x + 15.
Proof.
  rewrite aligned_eq. split; [rewrite Z.mul_comm; apply Z.mod_mul; lia|].
  assert (D := Z.div_mod (x + 15) 16 ltac:(lia)). assert (M := Z.mod_pos_bound (x + 15) 16 ltac:(lia)). lia.
Qed.

(** Invariant of one array. *)
Definition aok (h : blocks) (a : array) (v : shape) : Prop :=
  elem a = fst v /\ data_size a = snd v /\ 0 < fst v /\ 0 <= snd v /\
  ((base_ptr a = None /\ snd v = 0 /\ data a = 0) \/
   (exists b x, base_ptr a = Some b /\ nth_error h b = Some (x, fst v * snd v + 15, true) /\ data a = aligned x)).
Definition agood (os : arrays) (h : blocks) (s : shapes) : Prop :=
  (forall i, match os i, s i with Some a, Some v => aok h a v | None, None => True | _, _ => False end) /\
  (forall i j a a' b, os i = Some a -> os j = Some a' -> base_ptr a = Some b -> base_ptr a' = Some b -> i = j) /\
  (forall b c x n y m, b <> c -> nth_error h b = Some (x, n, true) -> nth_error h c = Some (y, m, true) -> apart x n y m) /\
  (forall b x n, nth_error h b = Some (x, n, true) -> exists i a, os i = Some a /\ base_ptr a = Some b).

Lemma aok_frame h h' a v : (forall b, base_ptr a = Some b -> nth_error h' b = nth_error h b) -> aok h a v -> aok h' a v.
Proof.
  intros F (A & B & C & D & E). do 4 (split; [assumption|]). destruct E as [E|(b & x & P & N & Q)]; [left; exact E|right].
  exists b, x. split; [exact P|]. split; [rewrite F; assumption|exact Q].
Qed.
Lemma aok_bound h a v b : aok h a v -> base_ptr a = Some b -> (b < length h)%nat.
Proof. intros (_ & _ & _ & _ & E) P. destruct E as [(Q & _)|(b' & x & Q & N & _)]; [congruence|]. rewrite P in Q. injection Q as ->. apply nth_error_Some. congruence. Qed.

Lemma adelete_ok h a v : aok h a v -> exists h', adelete h (base_ptr a) = HOk h' /\ length h' = length h /\
  (forall b, base_ptr a = Some b -> forall x n, nth_error h' b <> Some (x, n, true)) /\ (forall b, base_ptr a <> Some b -> nth_error h' b = nth_error h b).
Proof.
  intros (_ & _ & _ & _ & E). destruct E as [(-> & _)|(b & x & -> & N & _)].
  - exists h. repeat split; discriminate.
  - cbn [adelete]. rewrite N. eexists. split; [reflexivity|]. split; [apply replace_length|].
    assert (Bd : (b < length h)%nat) by (apply nth_error_Some; congruence). split.
    + intros b' [= <-] y n. rewrite replace_nth, Nat.eqb_refl, (proj2 (Nat.ltb_lt _ _) Bd). cbn. congruence.
    + intros b' D. rewrite replace_nth. destruct (Nat.eqb_spec b' b) as [->|]; [congruence|reflexivity].
Qed.

Lemma agood_some os h s i v : agood os h s -> s i = Some v -> exists a, os i = Some a /\ aok h a v.
Proof. intros (G & _) E. specialize (G i). rewrite E in G. destruct (os i) as [o|]; [|contradiction]. exists o. split; [reflexivity|exact G]. Qed.
Lemma agood_none os h s i : agood os h s -> s i = None -> os i = None.
Proof. intros (G & _) E. specialize (G i). rewrite E in G. destruct (os i); [contradiction|reflexivity]. Qed.
Lemma agood_bound os h s i a b : agood os h s -> os i = Some a -> base_ptr a = Some b -> (b < length h)%nat.
Proof. intros (G & _) E P. specialize (G i). rewrite E in G. destruct (s i) as [v|]; [|contradiction]. eapply aok_bound; eassumption. Qed.

(** Destroying. *)
Lemma adestroy_good os h s i v : agood os h s -> s i = Some v -> exists a h', os i = Some a /\ adelete h (base_ptr a) = HOk h' /\ length h' = length h /\
  agood (put_array os i None) h' (set_shape s i None) /\ (forall b x n, nth_error h' b = Some (x, n, true) -> nth_error h b = Some (x, n, true)).
Proof.
  intros Gd S. destruct (agood_some _ _ _ _ _ Gd S) as (a & E & K). destruct (adelete_ok _ _ _ K) as (h' & D & L & A & B). exists a, h'.
  split; [exact E|]. split; [exact D|]. split; [exact L|].
  assert (Sub : forall b x n, nth_error h' b = Some (x, n, true) -> nth_error h b = Some (x, n, true) /\ base_ptr a <> Some b).
  { intros b x n H. assert (X : base_ptr a <> Some b) by (intros X; apply (A b X x n H)). split; [rewrite <- (B b X); exact H|exact X]. }
  split; [|intros b x n H; apply (Sub b x n H)]. destruct Gd as (G & J & Ap & Own). split; [|split; [|split]].
  - intros k. unfold put_array, set_shape. destruct (Nat.eqb_spec k i) as [->|Dk]; [exact I|]. specialize (G k). destruct (os k) as [a'|] eqn:Ek, (s k); try exact G.
    eapply aok_frame; [|exact G]. intros b P. apply B. intros Q. apply Dk. apply (J _ _ _ _ _ Ek E P Q).
  - intros k m a1 a2 b. unfold put_array. destruct (Nat.eqb_spec k i); [discriminate|]. destruct (Nat.eqb_spec m i); [discriminate|]. apply J.
  - intros b c x n y m Dbc H1 H2. destruct (Sub _ _ _ H1) as [H1' _]. destruct (Sub _ _ _ H2) as [H2' _]. apply (Ap b c x n y m Dbc H1' H2').
  - intros b x n H. destruct (Sub _ _ _ H) as [H' X]. destruct (Own b x n H') as (k & a' & Ek & P). exists k, a'. split; [|exact P].
    unfold put_array. destruct (Nat.eqb_spec k i) as [->|]; [|exact Ek]. congruence.
Qed.

(** Allocating for a slot that holds no array. *)
Lemma aalloc_good os h s i e n x : agood os h s -> s i = None -> 0 < e -> 0 <= n -> free_range h x (e * n + 15) ->
  agood (put_array os i (Some {| elem := e; data_size := n; base_ptr := Some (length h); data := aligned x |})) (h ++ [(x, e * n + 15, true)]) (set_shape s i (Some (e, n))).
Proof.
  intros Gd S E N Fr. assert (Ni := agood_none _ _ _ _ Gd S). assert (Bd := fun k a b => agood_bound _ _ _ k a b Gd). destruct Gd as (G & J & Ap & Own).
  assert (Old : forall b, (b < length h)%nat -> nth_error (h ++ [(x, e * n + 15, true)]) b = nth_error h b) by (intros b H; apply nth_error_app1, H).
  assert (Last : nth_error (h ++ [(x, e * n + 15, true)]) (length h) = Some (x, e * n + 15, true)) by (rewrite nth_error_app2, Nat.sub_diag by lia; reflexivity).
  assert (Cases : forall b y m, nth_error (h ++ [(x, e * n + 15, true)]) b = Some (y, m, true) -> ((b < length h)%nat /\ nth_error h b = Some (y, m, true)) \/ (b = length h /\ y = x /\ m = e * n + 15)).
  { intros b y m H. destruct (Nat.lt_ge_cases b (length h)) as [L|L]; [left; rewrite Old in H by exact L; split; assumption|].
    assert (H0 : (b < length (h ++ [(x, (e * n + 15)%Z, true)]))%nat) by (apply nth_error_Some; congruence). rewrite app_length in H0. cbn [length] in H0. assert (b = length h) by lia. subst.
    rewrite Last in H. injection H as <- <-. right. repeat split. }
  split; [|split; [|split]].
  - intros k. unfold put_array, set_shape. destruct (Nat.eqb_spec k i) as [->|Dk].
    + cbn. do 4 (split; [first [reflexivity|assumption]|]). right. exists (length h), x. split; [reflexivity|]. split; [exact Last|reflexivity].
    + specialize (G k). destruct (os k) as [a'|] eqn:Ek, (s k); try exact G. eapply aok_frame; [|exact G]. intros b P. apply Old. eapply Bd; eassumption.
  - intros k m a1 a2 b. unfold put_array. destruct (Nat.eqb_spec k i) as [->|Dk]; destruct (Nat.eqb_spec m i) as [->|Dm]; intros E1 E2 P Q.
    + reflexivity.
    + injection E1 as <-. cbn in P. injection P as <-. specialize (Bd _ _ _ E2 Q). lia.
    + injection E2 as <-. cbn in Q. injection Q as <-. specialize (Bd _ _ _ E1 P). lia.
    + eapply J; eassumption.
  - intros b c y m z l Dbc H1 H2. destruct (Cases _ _ _ H1) as [[L1 H1']|(-> & -> & ->)]; destruct (Cases _ _ _ H2) as [[L2 H2']|(-> & -> & ->)].
    + apply (Ap b c y m z l Dbc H1' H2').
    + apply (Fr _ _ _ H1').
    + assert (X := Fr _ _ _ H2'). unfold apart in *. tauto.
    + contradiction.
  - intros b y m H. destruct (Cases _ _ _ H) as [[L1 H1']|(-> & -> & ->)].
    + destruct (Own _ _ _ H1') as (k & a & Ek & P). exists k, a. split; [|exact P]. unfold put_array. destruct (Nat.eqb_spec k i) as [->|]; [congruence|exact Ek].
    + exists i. eexists. unfold put_array. rewrite Nat.eqb_refl. split; reflexivity.
Qed.

Lemma agood_ext os os' h s s' : (forall k, os' k = os k) -> (forall k, s' k = s k) -> agood os h s -> agood os' h s'.
Proof.
  intros E1 E2 (G & J & Ap & Own). split; [|split; [|split]].
  - intros k. rewrite E1, E2. apply G.
  - intros i j a a' b. rewrite !E1. apply J.
  - exact Ap.
  - intros b x n H. destruct (Own b x n H) as (i & a & Ei & P). exists i, a. rewrite E1. split; assumption.
Qed.

Lemma astep_ok os h s o : agood os h s -> ausable (os, h) s o -> exists os' h', astep (os, h) o = HOk (os', h') /\ agood os' h' (ameaning s o).
Proof.
  intros Gd U. destruct o as [i e|i e n addr|i n addr|i j|i]; cbn [ausable snd] in U; cbn [astep ameaning].
  - destruct U as [S E]. do 2 eexists. split; [reflexivity|]. assert (Ni := agood_none _ _ _ _ Gd S). destruct Gd as (G & J & Ap & Own). split; [|split; [|split]].
    + intros k. unfold put_array, set_shape. destruct (Nat.eqb_spec k i) as [->|Dk]; [|apply G]. do 4 (split; [first [reflexivity|assumption|cbn; lia]|]). left. repeat split.
    + intros k m a1 a2 b. unfold put_array. destruct (Nat.eqb_spec k i) as [->|Dk]; [intros [= <-] _; discriminate|]. destruct (Nat.eqb_spec m i) as [->|Dm]; [intros _ [= <-] _; discriminate|]. apply J.
    + exact Ap.
    + intros b x n H. destruct (Own _ _ _ H) as (k & a & Ek & P). exists k, a. split; [|exact P]. unfold put_array. destruct (Nat.eqb_spec k i) as [->|]; [congruence|exact Ek].
  - destruct U as (S & E & N & x & -> & Fr). unfold allocate. destruct (Z.ltb_spec n 0); [lia|]. cbn [amalloc elem]. do 2 eexists. split; [reflexivity|]. apply aalloc_good; assumption.
  - destruct U as (N & e & m & S & x & -> & Fr). destruct (agood_some _ _ _ _ _ Gd S) as (a & Ei & K). unfold arr. rewrite Ei, S. cbn [hbind]. unfold resize.
    destruct K as (K1 & K2 & K3 & K4 & K5). cbn [fst snd] in *. destruct (Z.eqb_spec (data_size a) n) as [Q|Q].
    + cbn [hbind]. do 2 eexists. split; [reflexivity|]. assert (Qm : m = n) by congruence. rewrite Qm in S. eapply agood_ext; [| |exact Gd].
      * intros k. unfold put_array. destruct (Nat.eqb_spec k i) as [->|]; [symmetry; exact Ei|reflexivity].
      * intros k. unfold set_shape. destruct (Nat.eqb_spec k i) as [->|]; [symmetry; exact S|reflexivity].
    + destruct (adestroy_good _ _ _ _ _ Gd S) as (a' & h' & Ei' & Dl & L & Gd' & Sub). rewrite Ei in Ei'. injection Ei' as <-. rewrite Dl. cbn [hbind].
      unfold allocate. destruct (Z.ltb_spec n 0); [lia|]. cbn [amalloc]. do 2 eexists. split; [reflexivity|]. rewrite K1.
      eapply agood_ext; [| |apply (aalloc_good _ _ _ i e n x Gd')]; try assumption.
      * intros k. unfold put_array. destruct (Nat.eqb_spec k i) as [->|]; reflexivity.
      * intros k. unfold set_shape. destruct (Nat.eqb_spec k i) as [->|]; reflexivity.
      * unfold set_shape. rewrite Nat.eqb_refl. reflexivity.
      * intros b y l H1. apply (Fr b y l), Sub, H1.
  - destruct U.
  - destruct (s i) as [v|] eqn:S; [|contradiction]. destruct (adestroy_good _ _ _ _ _ Gd S) as (a & h' & Ei & Dl & _ & Gd' & _).
    unfold arr. rewrite Ei. cbn [hbind]. rewrite Dl. cbn [hbind]. do 2 eexists. split; [reflexivity|exact Gd'].
Qed.

Lemma arun_good l : forall os h s, agood os h s -> ausable_all (os, h) s l -> exists os' h', arun (os, h) l = HOk (os', h') /\ agood os' h' (ameaning_of s l).
Proof.
  induction l as [|o l IH]; intros os h s Gd U; [exists os, h; split; [reflexivity|exact Gd]|].
  destruct U as [U1 U2]. destruct (astep_ok _ _ _ _ Gd U1) as (os1 & h1 & E & Gd1). destruct (IH _ _ _ Gd1 (U2 _ E)) as (os2 & h2 & E2 & Gd2).
  exists os2, h2. split; [|exact Gd2]. unfold arun in *. cbn [hfold]. rewrite E. cbn [hbind]. exact E2.
Qed.
Lemma astart_good : agood (fst astart) (snd astart) no_shape.
Proof. split; [intros i; exact I|]. split; [discriminate|]. split; [intros b c x n y m _ H; destruct b; discriminate|]. intros b x n H. destruct b; discriminate. Qed.

Lemma agood_aligned os h s : agood os h s -> aligned_arrays (os, h) s.
Proof.
  intros Gd. split.
  - intros i. destruct (s i) as [[e n]|] eqn:S.
    + destruct (agood_some _ _ _ _ _ Gd S) as (a & Ei & K1 & K2 & K3 & K4 & K5). cbn [fst snd] in *. unfold size_of, element_address, arr. cbn [fst snd]. rewrite Ei. cbn [hbind]. rewrite K2. split; [reflexivity|].
      exists (data a). split; [intros k; rewrite K1; reflexivity|]. destruct K5 as [(_ & -> & ->)|(b & x & _ & Hb & ->)]; [split; [reflexivity|lia]|].
      destruct (aligned_spec x) as [A B]. split; [exact A|]. intros k Hk. exists b, x, (e * n + 15). split; [exact Hb|]. nia.
    + unfold size_of, arr. cbn [fst]. rewrite (agood_none _ _ _ _ Gd S). reflexivity.
  - intros i j e n f m d d' Dij Si Sj E1 E2 k l Hk Hl. destruct (agood_some _ _ _ _ _ Gd Si) as (a & Ei & K1 & K2 & K3 & K4 & K5). destruct (agood_some _ _ _ _ _ Gd Sj) as (a' & Ej & Q1 & Q2 & Q3 & Q4 & Q5).
    cbn [fst snd] in *. unfold element_address, arr in E1, E2. cbn [fst] in *. rewrite Ei in E1. rewrite Ej in E2. cbn [hbind] in *. injection E1 as E1. injection E2 as E2.
    destruct K5 as [(_ & X & _)|(b & x & P & Hb & Da)]; [lia|]. destruct Q5 as [(_ & X & _)|(c & y & P' & Hc & Da')]; [lia|].
    destruct Gd as (_ & J & Ap & _). assert (Dbc : b <> c) by (intros ->; apply Dij, (J _ _ _ _ _ Ei Ej P P')).
    specialize (Ap b c _ _ _ _ Dbc Hb Hc). destruct (aligned_spec x) as [_ B]. destruct (aligned_spec y) as [_ B']. unfold apart in *. nia.
Qed.

Lemma aprograms l : ausable_all astart no_shape l -> exists w, arun astart l = HOk w /\ aligned_arrays w (ameaning_of no_shape l) /\
  ((forall i, ameaning_of no_shape l i = None) -> all_released w).
Proof.
  intros U. destruct (arun_good l _ _ _ astart_good U) as (os & h & E & G). exists (os, h). split; [exact E|]. split; [apply agood_aligned, G|].
  intros Em b x n H. destruct G as (G & _ & _ & Own). destruct (Own b x n H) as (i & a & Ei & _). specialize (G i). rewrite Ei, Em in G. exact G.
Qed.

(** *** Copies and failing allocations *)
Lemma areach_good w : areachable w -> exists s, agood (fst w) (snd w) s.
Proof.
  intros (l & U & E). destruct (arun_good l _ _ _ astart_good U) as (os & h & E' & G). change (fst astart, snd astart) with astart in E'. rewrite E in E'. injection E' as ->. eexists. exact G.
Qed.
Lemma size_good os h s i n : agood os h s -> size_of (os, h) i = HOk n -> exists e a, s i = Some (e, n) /\ os i = Some a /\ aok h a (e, n).
Proof.
  intros Gd H. assert (X := proj1 (agood_aligned _ _ _ Gd) i). destruct (s i) as [[e m]|] eqn:S; [|congruence]. destruct X as [X _]. rewrite X in H. injection H as ->.
  destruct (agood_some _ _ _ _ _ Gd S) as (a & Ei & K). exists e, a. repeat split; assumption || apply K.
Qed.
Lemma adelete_gone h b h' : adelete h (Some b) = HOk h' -> adelete h' (Some b) = HErr DoubleFree.
Proof.
  cbn [adelete]. destruct (nth_error h b) as [[[x n] [|]]|] eqn:E; try discriminate. intros [= <-].
  assert (Bd : (b < length h)%nat) by (apply nth_error_Some; congruence). rewrite replace_nth, Nat.eqb_refl, (proj2 (Nat.ltb_lt _ _) Bd). reflexivity.
Qed.

Lemma copy_breaks w i j n : areachable w -> size_of w i = HErr NoObject -> size_of w j = HOk n -> 0 < n ->
  arun w [ACopy i j; ADestroy i; ADestroy j] = HErr DoubleFree.
Proof.
  destruct w as [os h]. intros Rw Hi Hj N. destruct (areach_good _ Rw) as [s Gd]. cbn [fst snd] in Gd. destruct (size_good _ _ _ _ _ Gd Hj) as (e & a & S & Ej & K).
  assert (Dij : i <> j) by congruence. destruct (adelete_ok _ _ _ K) as (h' & D & _). destruct K as (_ & _ & _ & _ & [(_ & X & _)|(b & x & P & _)]); [cbn in X; lia|].
  unfold arun. cbn [hfold astep]. unfold arr at 1. rewrite Ej. cbn [hbind hfold astep]. unfold arr at 1. unfold put_array at 1. rewrite Nat.eqb_refl. cbn [hbind]. rewrite D. cbn [hbind hfold astep].
  unfold arr. unfold put_array. destruct (Nat.eqb_spec j i); [congruence|]. rewrite Ej. cbn [hbind]. rewrite P in *. rewrite (adelete_gone _ _ _ D). reflexivity.
Qed.

Lemma failed_resize_breaks w i n m : areachable w -> size_of w i = HOk n -> 0 < n -> m <> n ->
  exists w', astep w (AResize i m None) = HOk w' /\ size_of w' i = HOk m /\ astep w' (ADestroy i) = HErr DoubleFree.
Proof.
  destruct w as [os h]. intros Rw Hi N D. destruct (areach_good _ Rw) as [s Gd]. cbn [fst snd] in Gd. destruct (size_good _ _ _ _ _ Gd Hi) as (e & a & S & Ei & K).
  destruct (adelete_ok _ _ _ K) as (h' & Dl & _). destruct K as (K1 & K2 & _ & _ & [(_ & X & _)|(b & x & P & _)]); cbn [fst snd] in *; [lia|].
  eexists. split; [|split].
  - cbn [astep]. unfold arr. rewrite Ei. cbn [hbind]. unfold resize. destruct (Z.eqb_spec (data_size a) m); [congruence|]. rewrite Dl. cbn [hbind allocate]. reflexivity.
  - unfold size_of, arr, put_array. cbn [fst]. rewrite Nat.eqb_refl. reflexivity.
  - cbn [astep]. unfold arr, put_array at 1. rewrite Nat.eqb_refl. cbn [hbind base_ptr]. rewrite P in *. rewrite (adelete_gone _ _ _ Dl). reflexivity.
Qed.

(** *** Examples *)
Definition ex_aprog : list aop := [ANewSize 0 8 10 (Some 1001); ANew 1 4; AResize 1 6 (Some 2000); AResize 0 3 (Some 3007)].
Lemma ex_aprog_usable : ausable_all astart no_shape ex_aprog.
Proof.
  unfold ex_aprog, astart. cbn [ausable_all ausable]. split.
  { repeat split; try lia. exists 1001. split; [reflexivity|]. intros [|b]; discriminate. }
  intros w1 [= <-]. split; [repeat split; lia|]. intros w2 [= <-]. split.
  { split; [lia|]. exists 4, 0. split; [reflexivity|]. exists 2000. split; [reflexivity|].
    intros [|[|b]] a n; cbn; try discriminate. intros [= <- <-]. left. lia. }
  intros w3 [= <-]. split; [|intros w4 _; exact I].
  split; [lia|]. exists 8, 10. split; [reflexivity|]. exists 3007. split; [reflexivity|].
  intros [|[|[|b]]] a n; cbn; try discriminate; intros [= <- <-]; left; lia.
Qed.
Lemma ex_aprog_result : exists w, arun astart ex_aprog = HOk w /\ size_of w 0 = HOk 3 /\ element_address w 0 0 = HOk 3008 /\ element_address w 1 0 = HOk 2000 /\ snd w = [(1001, 95, false); (2000, 39, true); (3007, 39, true)].
Proof. eexists. split; [vm_compute; reflexivity|]. repeat split. Qed.
Lemma ex_areach : exists w, areachable w /\ size_of w 0 = HOk 3 /\ size_of w 7 = HErr NoObject.
Proof. destruct ex_aprog_result as (w & E & S & _). exists w. split; [exists ex_aprog; split; [exact ex_aprog_usable|exact E]|]. split; [exact S|]. vm_compute in E. injection E as <-. reflexivity. Qed.

(** A constructor whose allocation throws leaves no object and no memory behind. *)
Lemma failed_construction w i s n addr : addr = None \/ n < 0 -> astep w (ANewSize i s n addr) = HOk w.
Proof.
  intros H. destruct w as [os h]. cbn [astep]. unfold allocate. destruct addr as [x|]; [|reflexivity]. destruct H as [H|H]; [discriminate|]. apply Z.ltb_lt in H. rewrite H. reflexivity.
Qed.
