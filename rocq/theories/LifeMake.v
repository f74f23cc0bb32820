(** Proofs about the memory of structures: constructors, copies and printing. *)
From Verif Require Import NestModel NestSpec NestProofs LifeModel LifeSpec LifeProofs LifeInv.
Local Open Scope nat_scope.
Local Open Scope list_scope.

Lemma got_ok f idx z : f idx = Some z -> got f idx = HOk z.
Proof. unfold got. now intros ->. Qed.
Lemma val_got f idx z : f idx = Some z -> Some (val (got f idx)) = f idx.
Proof. unfold got. now intros ->. Qed.

(** *** Copies *)
Lemma copy_full rhs h own v : slot h (Some rhs) (Some (Full v)) own ->
  exists o h', copy_from rhs h = HOk (o, h') /\ changes h h' [] (seq (length h) (length (coords v) + 7)) /\
    slot h' (Some o) (Some (Full v)) (seq (length h) (length (coords v) + 7)).
Proof.
  intros (G & En & b & p & a & c & o1 & o2 & o3 & o4 & Eb & Ep & Ea & Ec & _ & Hd & T1 & T2 & T3 & T4).
  destruct G as (Gb & Go & Gn & Gc & Ga). unfold copy_from. rewrite Eb, Ep, Ea, Ec, En. cbn [deref]. rewrite En in T3, T4.
  set (n := length (coords v)) in *.
  assert (forall idx, within [3; 3] idx -> exists z, at2 (basis v) idx = Some z) as Hb.
  { intros idx Hx. apply within2 in Hx. destruct Hx as (i & j & -> & Hi & Hj). eapply at2_some; eauto. }
  assert (forall idx, within [3] idx -> exists z, at1 (origin v) idx = Some z) as Ho.
  { intros idx Hx. apply within1 in Hx. destruct Hx as (i & -> & Hi). eapply at1_some; eauto. }
  assert (forall idx, within [n] idx -> exists z, at1 (numbers v) idx = Some z) as Ha.
  { intros idx Hx. apply within1 in Hx. destruct Hx as (i & -> & Hi). eapply at1_some; eauto. }
  assert (forall idx, within [n; 3] idx -> exists z, at2 (coords v) idx = Some z) as Hc.
  { intros idx Hx. apply within2 in Hx. destruct Hx as (i & j & -> & Hi & Hj). eapply at2_some; eauto. }
  destruct (build_ok n (fun h idx => read_at h b idx) (fun h idx => read_at h p idx) (fun h idx => read_at h a idx) (fun _ h idx => read_at h c idx) h
    (got (at2 (basis v))) (got (at1 (origin v))) (got (at1 (numbers v))) (got (at2 (coords v)))) as (o & h' & E & En' & L & A & Ar).
  - exact Gn.
  - eapply outcome_read; eauto.
  - eapply outcome_read; eauto.
  - eapply outcome_read; eauto.
  - intros h1 L1 A1 _. eapply outcome_later; [eapply outcome_read; eauto|auto|auto].
  - intros idx Hx. destruct (Hb idx Hx) as [z Hz]. exists z. now apply got_ok.
  - intros idx Hx. destruct (Ho idx Hx) as [z Hz]. exists z. now apply got_ok.
  - intros idx Hx. destruct (Ha idx Hx) as [z Hz]. exists z. now apply got_ok.
  - intros idx Hx. destruct (Hc idx Hx) as [z Hz]. exists z. now apply got_ok.
  - exists o, h'. split; [exact E|]. split; [now apply fresh_changes|].
    cbn [slot]. split; [repeat split; auto; try apply Gb; try apply Gc|]. split; [exact En'|].
    eapply arrays_ext; [exact Ar| | | |]; cbn beta; try rewrite En'.
    + intros idx Hx. destruct (Hb idx Hx) as [z Hz]. eapply val_got; eauto.
    + intros idx Hx. destruct (Ho idx Hx) as [z Hz]. eapply val_got; eauto.
    + intros idx Hx. destruct (Ha idx Hx) as [z Hz]. eapply val_got; eauto.
    + intros idx Hx. destruct (Hc idx Hx) as [z Hz]. eapply val_got; eauto.
Qed.
Lemma copy_unset rhs h own n : slot h (Some rhs) (Some (Unset n)) own -> exists e, copy_from rhs h = HErr e.
Proof.
  intros (Hn & En & b & p & a & c & o1 & o2 & o3 & o4 & Eb & Ep & Ea & Ec & _ & Hd & T1 & T2 & T3 & T4).
  unfold copy_from. rewrite Eb, Ep, Ea, Ec. cbn [deref].
  apply (build_bad _ (fun h idx => read_at h b idx) (fun h idx => read_at h p idx) (fun h idx => read_at h a idx) (fun _ h idx => read_at h c idx) h
    (got (fun _ => None)) (got (fun _ => None)) (got (fun _ => None)) (got (fun _ => None))).
  - eapply outcome_read; eauto.
  - eapply outcome_read; eauto.
  - eapply outcome_read; eauto.
  - intros h1 L1 A1 _. eapply outcome_later; [eapply outcome_read; eauto|auto|auto].
  - left. exists [0; 0], Uninitialised. split; [apply within_2; lia|reflexivity].
Qed.

(** *** The constructor with values *)
Lemma arg1_ok l n i : n <= length l -> i < n -> exists z, arg1 l [i] = HOk z /\ at1 (firstn n l) [i] = Some z.
Proof.
  intros Hn Hi. cbn [arg1 at1]. rewrite nth_firstn_lt by auto. destruct (nth_error l i) as [z|] eqn:E; [eauto|apply nth_error_None in E; lia].
Qed.
(** The Cartesian coordinates with the basis vectors given as arguments. *)
Definition cart_result (frac b : list (list Z)) (idx : list nat) : hres Z :=
  match idx with
  | [ii; jj] =>
      hbind (arg2 frac [ii; 0]) (fun f0 => hbind (HOk (val (arg2 b [0; jj]))) (fun b0 =>
      hbind (arg2 frac [ii; 1]) (fun f1 => hbind (HOk (val (arg2 b [1; jj]))) (fun b1 =>
      hbind (arg2 frac [ii; 2]) (fun f2 => hbind (HOk (val (arg2 b [2; jj]))) (fun b2 =>
      HOk (f0 * b0 + f1 * b1 + f2 * b2)%Z))))))
  | _ => HErr OutOfBounds
  end.
Lemma outcome_cart n frac b h p own : tree h [3; 3] p own (fun idx => Some (val (arg2 b idx))) -> outcome [n; 3] (cart_of frac p) h (cart_result frac b).
Proof.
  intros T idx h1 Hx L A. apply within2 in Hx. destruct Hx as (i & j & -> & Hi & Hj). unfold cart_of, cart_result.
  assert (forall k, k < 3 -> read_at h1 p [k; j] = HOk (val (arg2 b [k; j]))) as R.
  { intros k Hk. apply (read_spec [3; 3] h1 p own (fun idx => Some (val (arg2 b idx))) [k; j]); [|apply within_2; auto]. eapply tree_later; eauto. }
  rewrite !R by lia. reflexivity.
Qed.
Lemma cart_ok n c b i j : table 3 b = true -> table n c = true -> i < n -> j < 3 ->
  exists z, cart_result c b [i; j] = HOk z /\ at2 (map (fun f => vcomb f (map (firstn 3) (firstn 3 b))) (map (firstn 3) (firstn n c))) [i; j] = Some z.
Proof.
  intros Tb Tc Hi Hj. destruct (table_ok n c i 0 Tc Hi) as (f0 & F0 & G0); [lia|]. destruct (table_ok n c i 1 Tc Hi) as (f1 & F1 & G1); [lia|].
  destruct (table_ok n c i 2 Tc Hi) as (f2 & F2 & G2); [lia|].
  destruct (table_ok 3 b 0 j Tb) as (b0 & B0 & C0); [lia|lia|]. destruct (table_ok 3 b 1 j Tb) as (b1 & B1 & C1); [lia|lia|].
  destruct (table_ok 3 b 2 j Tb) as (b2 & B2 & C2); [lia|lia|].
  unfold cart_result. rewrite F0, F1, F2, B0, B1, B2. cbn [hbind val]. eexists. split; [reflexivity|].
  pose proof (table_rows n c Tc) as Rc. pose proof (table_rows 3 b Tb) as Rb. cbn [at2] in G0, G1, G2 |- *. rewrite nth_error_map.
  destruct (rows_row n _ i Rc Hi) as (r & Er & Lr). rewrite Er in *. cbn [option_map].
  destruct (three r Lr) as (x & y & z & ->). cbn [nth_error] in G0, G1, G2. injection G0 as ->. injection G1 as ->. injection G2 as ->.
  eapply vcomb_at; eauto.
Qed.
Lemma cart_rows n c b : table 3 b = true -> table n c = true -> rows n (map (fun f => vcomb f (map (firstn 3) (firstn 3 b))) (map (firstn 3) (firstn n c))).
Proof.
  intros Tb Tc. pose proof (table_rows n c Tc) as [L F]. split; [now rewrite map_length|].
  apply Forall_forall. intros r Hr. apply in_map_iff in Hr. destruct Hr as (f & <- & Hf). rewrite Forall_forall in F.
  apply vcomb_length; [now apply table_rows|auto].
Qed.
Definition coord_result (is_cart : bool) (c b : list (list Z)) : list nat -> hres Z := if is_cart then arg2 c else cart_result c b.
Lemma coord_outcome n (is_cart : bool) c b h1 p own : tree h1 [3; 3] p own (fun idx => Some (val (arg2 b idx))) ->
  outcome [n; 3] (if is_cart then fun _ => arg2 c else cart_of c p) h1 (coord_result is_cart c b).
Proof. intros T. destruct is_cart; [apply outcome_const|]. eapply outcome_cart; eauto. Qed.

Lemma make_ok n b a c is_cart h v : made n b a c is_cart = Some v ->
  exists o h', construct n b a c is_cart h = HOk (o, h') /\ exists new, changes h h' [] new /\ slot h' (Some o) (Some v) new.
Proof.
  unfold made, construct. destruct (Nat.eqb_spec n 0) as [->|Hn].
  { intros E. injection E as <-. eexists. exists h. split; [reflexivity|]. exists []. split; [|cbn; auto].
    exact (fresh_changes h h 0 ltac:(lia) ltac:(intros x _; reflexivity)). }
  destruct (table 3 b) eqn:Tb; cbn [andb]; [|discriminate]. destruct (Nat.leb_spec n (length a)) as [La|]; cbn [andb]; [|discriminate].
  destruct (table n c) eqn:Tc; [|discriminate]. intros E.
  set (cs := if is_cart then map (firstn 3) (firstn n c) else map (fun f => vcomb f (map (firstn 3) (firstn 3 b))) (map (firstn 3) (firstn n c))).
  assert (v = Full {| basis := map (firstn 3) (firstn 3 b); origin := [0; 0; 0]%Z; numbers := firstn n a; coords := cs |}) as -> by (unfold cs; congruence).
  clear E.
  assert (rows n cs) as Rcs by (unfold cs; destruct is_cart; [now apply table_rows|now apply cart_rows]).
  assert (forall i j, i < n -> j < 3 -> exists z, coord_result is_cart c b [i; j] = HOk z /\ at2 cs [i; j] = Some z) as Hc.
  { intros i j Hi Hj. unfold coord_result, cs. destruct is_cart; [now apply table_ok|now apply cart_ok]. }
  destruct (build_ok n (fun _ => arg2 b) (fun _ _ => HOk 0%Z) (fun _ => arg1 a) (fun p => if is_cart then fun _ => arg2 c else cart_of c p) h
    (arg2 b) (fun _ => HOk 0%Z) (arg1 a) (coord_result is_cart c b)) as (o & h' & E & En' & L & A & Ar).
  - lia.
  - apply outcome_const.
  - apply outcome_const.
  - apply outcome_const.
  - intros h1 L1 A1 (own & T). eapply coord_outcome; eauto.
  - intros idx Hx. apply within2 in Hx. destruct Hx as (i & j & -> & Hi & Hj). destruct (table_ok 3 b i j Tb Hi Hj) as (z & Ez & _). eauto.
  - eauto.
  - intros idx Hx. apply within1 in Hx. destruct Hx as (i & -> & Hi). destruct (arg1_ok a n i La Hi) as (z & Ez & _). eauto.
  - intros idx Hx. apply within2 in Hx. destruct Hx as (i & j & -> & Hi & Hj). destruct (Hc i j Hi Hj) as (z & Ez & _). eauto.
  - exists o, h'. split; [exact E|]. exists (seq (length h) (n + 7)). split; [now apply fresh_changes|].
    assert (length cs = n) as Lcs by apply Rcs.
    cbn [slot]. split; [|split; [rewrite En'; symmetry; exact Lcs|]].
    + unfold good. cbn [basis origin numbers coords]. rewrite Lcs. split; [now apply table_rows|]. split; [reflexivity|]. split; [lia|].
      split; [exact Rcs|]. rewrite firstn_length. lia.
    + cbn [basis origin numbers coords]. eapply arrays_ext; [exact Ar| | | |]; cbn beta; try rewrite En'.
      * intros idx Hx. apply within2 in Hx. destruct Hx as (i & j & -> & Hi & Hj). destruct (table_ok 3 b i j Tb Hi Hj) as (z & Ez & ->). now rewrite Ez.
      * intros idx Hx. apply within1 in Hx. destruct Hx as (i & -> & Hi). cbn [val at1]. destruct i as [|[|[|]]]; try lia; reflexivity.
      * intros idx Hx. apply within1 in Hx. destruct Hx as (i & -> & Hi). destruct (arg1_ok a n i La Hi) as (z & Ez & ->). now rewrite Ez.
      * intros idx Hx. apply within2 in Hx. destruct Hx as (i & j & -> & Hi & Hj). destruct (Hc i j Hi Hj) as (z & Ez & ->). now rewrite Ez.
Qed.
Lemma make_bad n b a c is_cart h : made n b a c is_cart = None -> exists e, construct n b a c is_cart h = HErr e.
Proof.
  unfold made, construct. destruct (Nat.eqb_spec n 0) as [->|Hn]; [discriminate|]. intros E.
  apply (build_bad n _ _ _ (fun p => if is_cart then fun _ => arg2 c else cart_of c p) h (arg2 b) (fun _ => HOk 0%Z) (arg1 a) (coord_result is_cart c b)).
  - apply outcome_const.
  - apply outcome_const.
  - apply outcome_const.
  - intros h1 L1 A1 (own & T). eapply coord_outcome; eauto.
  - destruct (table 3 b) eqn:Tb; cbn [andb] in E.
    2:{ left. destruct (table_bad 3 b Tb) as (i & j & e & Hi & Hj & H). exists [i; j], e. split; [apply within_2; auto|auto]. }
    right; right. destruct (Nat.leb_spec n (length a)) as [La|La]; cbn [andb] in E.
    2:{ left. exists [length a], OutOfBounds. split; [apply within_1; auto|]. cbn [arg1]. now rewrite (proj2 (nth_error_None a (length a))). }
    right. destruct (table n c) eqn:Tc; [discriminate|]. destruct (table_bad n c Tc) as (i & j & e & Hi & Hj & H).
    unfold coord_result. destruct is_cart; [exists [i; j], e; split; [apply within_2; auto|auto]|].
    exists [i; 0]. cbn [cart_result hbind].
    destruct (arg2 c [i; 0]) as [f0|e0] eqn:F0; cbn [hbind]; [|exists e0; split; [apply within_2; lia|auto]].
    destruct (arg2 c [i; 1]) as [f1|e1] eqn:F1; cbn [hbind]; [|exists e1; split; [apply within_2; lia|auto]].
    destruct (arg2 c [i; 2]) as [f2|e2] eqn:F2; cbn [hbind]; [|exists e2; split; [apply within_2; lia|auto]].
    destruct j as [|[|[|]]]; try lia; congruence.
Qed.

(** *** Memory without values *)
Lemma raw_ok n h : exists o h', construct_raw n h = HOk (o, h') /\
  exists new, changes h h' [] new /\ slot h' (Some o) (Some (if n =? 0 then Empty else Unset n)) new.
Proof.
  unfold construct_raw. destruct (Nat.eqb_spec n 0) as [->|Hn].
  { eexists. exists h. split; [reflexivity|]. exists []. split; [|cbn; auto].
    exact (fresh_changes h h 0 ltac:(lia) ltac:(intros x _; reflexivity)). }
  destruct (allocate_tree [3; 3] false h ltac:(easy)) as (h1 & E1 & L1 & A1 & T1). rewrite E1. cbn [hbind].
  destruct (allocate_tree [3] false h1 ltac:(easy)) as (h2 & E2 & L2 & A2 & T2). rewrite E2. cbn [hbind].
  destruct (allocate_tree [n] false h2 ltac:(easy)) as (h3 & E3 & L3 & A3 & T3). rewrite E3. cbn [hbind].
  destruct (allocate_tree [n; 3] false h3 ltac:(easy)) as (h4 & E4 & L4 & A4 & T4). rewrite E4. cbn [hbind].
  cbn [block_count] in L1, L2, L3, L4.
  assert (agree (fun x => x < length h) h h2) as A02 by (apply (agree_trans h h1 h2); auto; lia).
  assert (agree (fun x => x < length h) h h3) as A03 by (apply (agree_trans h h2 h3); auto; lia).
  assert (agree (fun x => x < length h) h h4) as A04 by (apply (agree_trans h h3 h4); auto; lia).
  eexists. exists h4. split; [reflexivity|]. exists (seq (length h) (n + 7)). split; [apply fresh_changes; auto; lia|].
  cbn [slot o_n]. split; [lia|]. split; [reflexivity|].
  exists (length h), (length h1), (length h2), (length h3).
  exists (seq (length h) 4), (seq (length h1) 1), (seq (length h2) (block_count [n])), (seq (length h3) (block_count [n; 3])). cbn [o_basis o_origin o_numbers o_coords o_n].
  do 4 (split; [reflexivity|]). split.
  { replace (length h1) with (length h + 4) by lia. replace (length h2) with (length h + 4 + 1) by lia.
    replace (length h3) with (length h + 4 + 1 + 1) by lia.
    replace (n + 7) with (4 + (1 + (1 + block_count [n; 3]))) by (cbn [block_count]; lia).
    replace (block_count [n]) with 1 by (cbn [block_count]; lia). rewrite !seq_app. reflexivity. }
  split; [apply seq_NoDup|]. split; [|split; [|split]].
  - apply (tree_later h3 h4); [apply (tree_later h2 h3); [apply (tree_later h1 h2); [exact T1|exact A2]|exact A3]|exact A4].
  - apply (tree_later h3 h4); [apply (tree_later h2 h3); [exact T2|exact A3]|exact A4].
  - apply (tree_later h3 h4); [exact T3|exact A4].
  - exact T4.
Qed.

(** *** Release *)
Lemma destroy_ok o v own h : slot h (Some o) (Some v) own ->
  exists h', destroy o h = HOk h' /\ length h' = length h /\ changes h h' own [] /\ dead h' (o_numbers o).
Proof.
  intros Sl. unfold destroy.
  assert (forall fb fo fn fc, 0 < o_n o -> arrays h o own fb fo fn fc ->
    exists h', (if o_n o =? 0 then HOk h else release o h) = HOk h' /\ length h' = length h /\ changes h h' own [] /\ dead h' (o_numbers o)) as H.
  { intros fb fo fn fc Hn Ar. destruct (Nat.eqb_spec (o_n o) 0); [lia|].
    destruct (release_ok _ _ _ _ _ _ _ Ar) as (h' & E & L & A & F). exists h'. split; [exact E|]. split; [exact L|]. split.
    - repeat split; [lia|intros; now apply A|intros; now apply F|intros; lia|intros x []].
    - destruct Ar as (b & p & a & c & o1 & o2 & o3 & o4 & Eb & Ep & Ea & Ec & -> & Hd & T1 & T2 & T3 & T4).
      rewrite Ea. apply F. rewrite !in_app_iff. right; right; left. eapply tree_root; eauto. }
  destruct v as [|n|v]; cbn [slot] in Sl.
  - destruct Sl as (-> & En & Dd). rewrite En. exists h. split; [reflexivity|]. split; [reflexivity|]. split; [|exact Dd].
    exact (fresh_changes h h 0 ltac:(lia) ltac:(intros x _; reflexivity)).
  - destruct Sl as (Hn & En & Ar). eapply H; eauto; lia.
  - destruct Sl as (G & En & Ar). eapply H; eauto. rewrite En. apply G.
Qed.

(** *** Printing *)
Lemma hmap_ok {B} (f : nat -> hres B) : forall (l : list B) k, (forall i y, nth_error l i = Some y -> f (k + i) = HOk y) -> hmap f (seq k (length l)) = HOk l.
Proof.
  induction l as [|y l IH]; intros k H; [reflexivity|]. cbn [length seq hmap].
  pose proof (H 0 y eq_refl) as H0. rewrite Nat.add_0_r in H0. rewrite H0. cbn [hbind]. rewrite IH; [reflexivity|].
  intros i z Hi. replace (S k + i) with (k + S i) by lia. now apply H.
Qed.
Lemma hmap_ok0 {B} (f : nat -> hres B) (l : list B) n : length l = n -> (forall i y, nth_error l i = Some y -> f i = HOk y) -> hmap f (seq 0 n) = HOk l.
Proof. intros <- H. apply hmap_ok. exact H. Qed.
Lemma show_full o v own h : slot h (Some o) (Some (Full v)) own -> show o h = HOk (Some (print_of v)).
Proof.
  intros (G & En & b & p & a & c & o1 & o2 & o3 & o4 & Eb & Ep & Ea & Ec & _ & Hd & T1 & T2 & T3 & T4).
  destruct G as (Gb & Go & Gn & Gc & Ga). rewrite En in T3, T4. unfold show. rewrite Eb, Ep, Ea, Ec, En. cbn [deref].
  destruct (Nat.eqb_spec (length (coords v)) 0); [lia|].
  assert (forall n q m own i r, rows n m -> tree h [n; 3] q own (at2 m) -> nth_error m i = Some r ->
            hmap (fun j => read_at h q [i; j]) (seq 0 3) = HOk r) as Hrow.
  { intros k q m ow i r Hm T E. assert (i < k) as Hi by (destruct Hm as [<- _]; apply nth_error_Some; congruence).
    destruct (rows_row k m i Hm Hi) as (r' & E' & L'). assert (r' = r) by congruence. subst r'.
    apply hmap_ok0; auto. intros j z Hj. assert (j < 3) as Hlt by (rewrite <- L'; apply nth_error_Some; congruence).
    pose proof (read_spec [k; 3] h q ow (at2 m) [i; j] T (within_2 _ _ _ _ Hi Hlt)) as R. unfold gives in R. cbn [at2] in R. rewrite E, Hj in R. exact R. }
  rewrite (hmap_ok0 _ (basis v) 3); [|apply Gb|intros i r Hi; exact (Hrow _ _ _ _ i r Gb T1 Hi)]. cbn [hbind].
  rewrite (hmap_ok0 _ (origin v) 3); [|exact Go|].
  2:{ intros i z Hi. assert (i < 3) as Hlt by (rewrite <- Go; apply nth_error_Some; congruence).
      pose proof (read_spec [3] h p o2 _ [i] T2 (within_1 _ _ Hlt)) as R. unfold gives in R. cbn [at1] in R. rewrite Hi in R. exact R. }
  cbn [hbind]. rewrite (hmap_ok0 _ (combine (numbers v) (coords v)) (length (coords v))); [reflexivity|rewrite combine_length; lia|].
  intros i [z r] Hi. assert (nth_error (numbers v) i = Some z /\ nth_error (coords v) i = Some r) as [Hz Hr].
  { revert Hi. clear. revert i. generalize (coords v). induction (numbers v) as [|y l IH]; intros [|s m] [|i]; cbn; try discriminate; auto.
    intros H. now injection H as -> ->. }
  assert (i < length (coords v)) as Hlt by (apply nth_error_Some; congruence).
  pose proof (read_spec [length (coords v)] h a o3 _ [i] T3 (within_1 _ _ Hlt)) as R. unfold gives in R. cbn [at1] in R. rewrite Hz in R.
  rewrite R. cbn [hbind]. rewrite (Hrow _ _ _ _ i r Gc T4 Hr). reflexivity.
Qed.
Lemma show_held o v own h : slot h (Some o) (Some v) own -> show o h = print_held v.
Proof.
  destruct v as [|n|v]; intros Sl.
  - destruct Sl as (_ & En & _). unfold show. now rewrite En.
  - destruct Sl as (Hn & En & b & p & a & c & o1 & o2 & o3 & o4 & Eb & Ep & Ea & Ec & _ & Hd & T1 & T2 & T3 & T4).
    unfold show. rewrite Eb, En. cbn [deref]. destruct (Nat.eqb_spec n 0); [lia|].
    pose proof (read_spec [3; 3] h b o1 _ [0; 0] T1 (within_2 3 3 0 0 ltac:(lia) ltac:(lia))) as R. unfold gives in R.
    change (seq 0 3) with [0; 1; 2]. cbn [hmap]. rewrite R. reflexivity.
  - eapply show_full; eauto.
Qed.
