(** Proofs about the memory of structures: enlargement. *)
From Coq Require Import Arith ZArith.
From Verif Require Import NestModel NestSpec NestProofs LifeModel LifeSpec LifeProofs LifeInv.
Local Open Scope nat_scope.
Local Open Scope list_scope.

(** *** Cells *)
Lemma cells_range s : zcount (range_of s) = cells s.
Proof.
  unfold zcount, range_of, cells, first_cell. set (z := Z.of_nat s). assert (0 <= z)%Z as Hz by (unfold z; lia).
  destruct (Z.eqb_spec (Z.rem z 2) 0) as [E|E]; cbn [fst snd].
  - apply Z.rem_divide in E; [|lia]. destruct E as [k Ek]. assert (0 <= k)%Z by lia.
    assert (Z.quot (- z) 2 = - k)%Z as -> by (rewrite Ek; replace (- (k * 2))%Z with ((- k) * 2)%Z by ring; apply Z.quot_mul; lia).
    assert (Z.quot z 2 = k)%Z as -> by (rewrite Ek; apply Z.quot_mul; lia).
    assert ((z - 1) / 2 = k - 1)%Z as -> by (symmetry; apply (Z.div_unique _ _ _ 1); lia).
    replace (Z.to_nat (k - (- k + 1) + 1)) with s by lia. apply map_ext. intros a. lia.
  - assert (z mod 2 = 1)%Z as Em.
    { rewrite Z.rem_mod_nonneg in E by lia. pose proof (Z.mod_pos_bound z 2 ltac:(lia)). lia. }
    assert (exists k, z = 2 * k + 1)%Z as [k Ek] by (exists (z / 2)%Z; pose proof (Z.div_mod z 2 ltac:(lia)); lia). assert (0 <= k)%Z by lia.
    assert (Z.quot (- (z - 1)) 2 = - k)%Z as -> by (rewrite Ek; replace (- (2 * k + 1 - 1))%Z with ((- k) * 2)%Z by ring; apply Z.quot_mul; lia).
    assert (Z.quot (z - 1) 2 = k)%Z as -> by (rewrite Ek; replace (2 * k + 1 - 1)%Z with (k * 2)%Z by ring; apply Z.quot_mul; lia).
    assert ((z - 1) / 2 = k)%Z as -> by (symmetry; apply (Z.div_unique _ _ _ 0); lia).
    replace (Z.to_nat (k - - k + 1)) with s by lia. apply map_ext. intros a. lia.
Qed.
Lemma cells_first s : fst (range_of s) = first_cell s.
Proof.
  unfold range_of, first_cell. set (z := Z.of_nat s). assert (0 <= z)%Z as Hz by (unfold z; lia).
  destruct (Z.eqb_spec (Z.rem z 2) 0) as [E|E]; cbn [fst snd].
  - apply Z.rem_divide in E; [|lia]. destruct E as [k Ek].
    assert (Z.quot (- z) 2 = - k)%Z as -> by (rewrite Ek; replace (- (k * 2))%Z with ((- k) * 2)%Z by ring; apply Z.quot_mul; lia).
    assert ((z - 1) / 2 = k - 1)%Z as -> by (symmetry; apply (Z.div_unique _ _ _ 1); lia). lia.
  - assert (z mod 2 = 1)%Z as Em.
    { rewrite Z.rem_mod_nonneg in E by lia. pose proof (Z.mod_pos_bound z 2 ltac:(lia)). lia. }
    pose proof (Z.div_mod z 2 ltac:(lia)) as D. rewrite Em in D. set (k := (z / 2)%Z) in *.
    assert (Z.quot (- (z - 1)) 2 = - k)%Z as -> by (rewrite D; replace (- (2 * k + 1 - 1))%Z with ((- k) * 2)%Z by ring; apply Z.quot_mul; lia).
    assert ((z - 1) / 2 = k)%Z as -> by (symmetry; apply (Z.div_unique _ _ _ 0); lia). lia.
Qed.

(** *** Lists of places *)
Lemma flat_map_prod {A B C} (f : A -> B -> C) l m : flat_map (fun a => map (f a) m) l = map (fun p => f (fst p) (snd p)) (list_prod l m).
Proof. induction l as [|a l IH]; cbn [flat_map list_prod]; [reflexivity|]. rewrite map_app, map_map, IH. reflexivity. Qed.
Lemma nth_concat_repeat {A} (l : list A) k c a : c < k -> a < length l -> nth_error (concat (repeat l k)) (c * length l + a) = nth_error l a.
Proof.
  revert c. induction k as [|k IH]; intros [|c] Hc Ha; try lia; cbn [repeat concat].
  - now rewrite nth_error_app1.
  - rewrite nth_error_app2 by lia. replace (S c * length l + a - length l) with (c * length l + a) by lia. apply IH; lia.
Qed.
Lemma concat_repeat_length {A} (l : list A) k : length (concat (repeat l k)) = k * length l.
Proof. induction k as [|k IH]; cbn; [reflexivity|]. rewrite app_length, IH. reflexivity. Qed.
Lemma flat_map_length_const {A B} (f : A -> list B) l n : (forall a, length (f a) = n) -> length (flat_map f l) = length l * n.
Proof. intros H. induction l as [|a l IH]; cbn; [reflexivity|]. rewrite app_length, H, IH. reflexivity. Qed.
Lemma cells_length s : length (cells s) = s.
Proof. unfold cells. now rewrite map_length, seq_length. Qed.
Definition shifts (s0 s1 s2 : nat) : list (Z * Z * Z) :=
  flat_map (fun ii => flat_map (fun jj => map (fun kk => (ii, jj, kk)) (cells s2)) (cells s1)) (cells s0).
Lemma shifts_length s0 s1 s2 : length (shifts s0 s1 s2) = s0 * (s1 * s2).
Proof.
  unfold shifts. rewrite (flat_map_length_const _ _ (s1 * s2)), cells_length; [reflexivity|]. intros i.
  rewrite (flat_map_length_const _ _ s2), cells_length; [reflexivity|]. intros j. now rewrite map_length, cells_length.
Qed.
Definition move (b : list (list Z)) (s : Z * Z * Z) : list Z := let '(i, j, k) := s in vcomb [i; j; k] b.
Lemma shifts_map s0 s1 s2 b :
  flat_map (fun i => flat_map (fun j => map (fun k => vcomb [i; j; k] b) (cells s2)) (cells s1)) (cells s0) = map (move b) (shifts s0 s1 s2).
Proof.
  unfold shifts. induction (cells s0) as [|i l IH]; [reflexivity|]. cbn [flat_map]. rewrite map_app, <- IH. f_equal. clear IH.
  induction (cells s1) as [|j m IH1]; [reflexivity|]. cbn [flat_map]. rewrite map_app, <- IH1. f_equal. rewrite map_map. reflexivity.
Qed.
Definition places (n : nat) (sh : list (Z * Z * Z)) : list (Z * Z * Z * nat) := flat_map (fun s => map (fun a => (s, a)) (seq 0 n)) sh.
Lemma places_length n sh : length (places n sh) = length sh * n.
Proof. apply flat_map_length_const. intros a. now rewrite map_length, seq_length. Qed.
Lemma map_nth_seq {A B} (f : A -> B) (l : list A) d : map f l = map (fun a => f (nth a l d)) (seq 0 (length l)).
Proof.
  induction l as [|x l IH]; [reflexivity|]. cbn [map length seq nth]. f_equal. rewrite IH, <- seq_shift, map_map. reflexivity.
Qed.
Lemma coords_places (m : Z * Z * Z -> list Z) cs sh :
  flat_map (fun d => map (vadd d) cs) (map m sh) = map (fun p => vadd (m (fst p)) (nth (snd p) cs [])) (places (length cs) sh).
Proof.
  unfold places. induction sh as [|s sh IH]; [reflexivity|]. cbn [map flat_map]. rewrite map_app, map_map, <- IH. f_equal.
  cbn [fst snd]. apply (map_nth_seq (vadd (m s)) cs []).
Qed.
Lemma nth_combine_seq {A} (l : list A) i x : nth_error l i = Some x -> In (i, x) (combine (seq 0 (length l)) l).
Proof.
  intros H. assert (forall k, In (k + i, x) (combine (seq k (length l)) l)) as G; [|exact (G 0)].
  revert i H. induction l as [|y l IH]; intros [|i] H k; try discriminate; cbn [length seq combine].
  - left. cbn in H. rewrite Nat.add_0_r. congruence.
  - right. replace (k + S i) with (S k + i) by lia. now apply IH.
Qed.
Lemma in_combine_seq {A} (l : list A) i x : In (i, x) (combine (seq 0 (length l)) l) -> nth_error l i = Some x.
Proof.
  assert (forall k, In (i, x) (combine (seq k (length l)) l) -> k <= i /\ nth_error l (i - k) = Some x) as G.
  { induction l as [|y l IH]; intros k; cbn [length seq combine]; [intros []|].
    intros [E|H]; [injection E as <- <-; split; [lia|now rewrite Nat.sub_diag]|].
    destruct (IH _ H) as [Hk E]. split; [lia|]. replace (i - k) with (S (i - S k)) by lia. exact E. }
  intros H. destruct (G 0 H) as [_ E]. now rewrite Nat.sub_0_r in E.
Qed.

(** *** Loops of assignments *)
Lemma assigns_fun {K} (ks : list K) (ix : K -> list nat) (e : K -> heap -> hres Z) (F : K -> Z) dims own h b f g :
  tree h dims b own f -> NoDup own -> (forall k, In k ks -> within dims (ix k)) ->
  (forall k h1, In k ks -> length h1 = length h -> agree (fun x => ~ In x own) h h1 -> e k h1 = HOk (F k)) ->
  (forall idx, within dims idx -> exists k, In k ks /\ ix k = idx) ->
  (forall k, In k ks -> g (ix k) = Some (F k)) ->
  exists h', assigns (map (fun k => (ix k, e k)) ks) b h = HOk h' /\ length h' = length h /\ agree (fun x => ~ In x own) h h' /\ tree h' dims b own g.
Proof.
  intros T Hd Hw He Hs Hg.
  destruct (assigns_tree dims own (map (fun k => (ix k, e k)) ks) (map (fun k => (ix k, F k)) ks) h b f T Hd) as (h' & E & L & A & T').
  - rewrite !map_map. reflexivity.
  - apply Forall_forall. intros p Hp. apply in_map_iff in Hp. destruct Hp as (k & <- & Hk). cbn [fst]. auto.
  - intros i p v Hp Hv h1 L1 A1 _. rewrite nth_error_map in Hp, Hv. destruct (nth_error ks i) as [k|] eqn:Ek; [|discriminate].
    cbn [option_map] in Hp, Hv. injection Hp as <-. injection Hv as <-. cbn [snd]. apply He; auto. eapply nth_error_In; eauto.
  - exists h'. split; [exact E|]. split; [exact L|]. split; [exact A|]. eapply tree_ext; [|exact T']. intros idx Hx. cbn beta.
    destruct (Hs idx Hx) as (k & Hk & <-). rewrite (Hg k Hk). apply last_written_const.
    + intros v Hv. apply in_map_iff in Hv. destruct Hv as (k' & Ek & Hk'). pose proof (Hg k Hk). pose proof (Hg k' Hk').
      assert (ix k' = ix k) by congruence. assert (F k' = v) by congruence. congruence.
    + left. apply in_map_iff. exists k. auto.
Qed.

(** *** The new values *)
Lemma vadd_at a b j x y : nth_error a j = Some x -> nth_error b j = Some y -> nth_error (vadd a b) j = Some (x + y)%Z.
Proof.
  unfold vadd. revert b j. induction a as [|p a IH]; intros [|q b] [|j]; cbn; try discriminate; [congruence|]. apply IH.
Qed.
Lemma vadd_length a b : length (vadd a b) = Nat.min (length a) (length b).
Proof. unfold vadd. now rewrite map_length, combine_length. Qed.
Lemma move_length b s : rows 3 b -> length (move b s) = 3.
Proof. destruct s as [[i j] k]. intros H. now apply vcomb_length. Qed.
Lemma enlarged_coords s0 s1 s2 v :
  coords (enlarged s0 s1 s2 v) = map (fun p => vadd (move (basis v) (fst p)) (nth (snd p) (coords v) [])) (places (length (coords v)) (shifts s0 s1 s2)).
Proof. unfold enlarged. cbn [coords]. rewrite shifts_map. apply coords_places. Qed.
Lemma enlarged_length s0 s1 s2 v : length (coords (enlarged s0 s1 s2 v)) = length (coords v) * s0 * s1 * s2.
Proof. rewrite enlarged_coords, map_length, places_length, shifts_length. ring. Qed.
Lemma in_places n sh s a : In (s, a) (places n sh) -> a < n.
Proof.
  unfold places. intros H. apply in_flat_map in H. destruct H as (s' & _ & H). apply in_map_iff in H. destruct H as (a' & E & H).
  apply in_seq in H. injection E as _ <-. lia.
Qed.
Lemma enlarged_good s0 s1 s2 v : 0 < s0 -> 0 < s1 -> 0 < s2 -> good v -> good (enlarged s0 s1 s2 v).
Proof.
  intros H0 H1 H2 (Gb & Go & Gn & Gc & Ga). unfold good. rewrite enlarged_length. split; [|split; [|split; [|split]]].
  - destruct (rows3 _ Gb) as (a & b & c & d & e & f & g & h & i & E). unfold enlarged. cbn [basis]. rewrite E.
    split; [reflexivity|]. repeat constructor.
  - unfold enlarged. cbn [origin]. now apply vcomb_length.
  - repeat apply Nat.mul_pos_pos; auto.
  - split; [apply enlarged_length|]. rewrite enlarged_coords. apply Forall_forall. intros r Hr. apply in_map_iff in Hr.
    destruct Hr as ([s a] & <- & Hp). cbn [fst snd]. rewrite vadd_length, move_length by auto.
    apply in_places in Hp. destruct (rows_row _ _ a Gc Hp) as (r & Er & Lr). rewrite (nth_error_nth _ _ _ Er). lia.
  - unfold enlarged. cbn [numbers]. rewrite concat_repeat_length, Ga. ring.
Qed.

Lemma assigns_each {K} (ks : list K) (ix : K -> list nat) (e : K -> heap -> hres Z) (F : K -> Z) dims own h b f g :
  tree h dims b own f -> NoDup own -> NoDup (map ix ks) -> (forall k, In k ks -> within dims (ix k)) ->
  (forall k h1 f1, In k ks -> tree h1 dims b own f1 -> f1 (ix k) = f (ix k) -> e k h1 = HOk (F k)) ->
  (forall idx, within dims idx -> exists k, In k ks /\ ix k = idx) ->
  (forall k, In k ks -> g (ix k) = Some (F k)) ->
  exists h', assigns (map (fun k => (ix k, e k)) ks) b h = HOk h' /\ length h' = length h /\ agree (fun x => ~ In x own) h h' /\ tree h' dims b own g.
Proof.
  intros T Hd Hn Hw He Hs Hg.
  destruct (assigns_tree dims own (map (fun k => (ix k, e k)) ks) (map (fun k => (ix k, F k)) ks) h b f T Hd) as (h' & E & L & A & T').
  - rewrite !map_map. reflexivity.
  - apply Forall_forall. intros p Hp. apply in_map_iff in Hp. destruct Hp as (k & <- & Hk). cbn [fst]. auto.
  - intros i p v Hp Hv h1 L1 A1 T1. rewrite nth_error_map in Hp, Hv. destruct (nth_error ks i) as [k|] eqn:Ek; [|discriminate].
    cbn [option_map] in Hp, Hv. injection Hp as <-. injection Hv as <-. cbn [snd].
    eapply He; [eapply nth_error_In; eauto|exact T1|]. cbn beta. apply last_written_other. rewrite firstn_map, map_map. cbn [fst].
    intros Hi. apply in_map_iff in Hi. destruct Hi as (k' & Ei & Hk'). destruct (In_nth_error _ _ Hk') as [j Hj].
    assert (j < length (firstn i ks)) as Hjl by (apply nth_error_Some; congruence). rewrite firstn_length in Hjl.
    rewrite nth_firstn_lt in Hj by lia.
    assert (j = i); [|lia]. apply (proj1 (NoDup_nth_error (map ix ks)) Hn); [rewrite map_length; lia|].
    rewrite !nth_error_map, Hj, Ek. cbn [option_map]. now rewrite Ei.
  - exists h'. split; [exact E|]. split; [exact L|]. split; [exact A|]. eapply tree_ext; [|exact T']. intros idx Hx. cbn beta.
    destruct (Hs idx Hx) as (k & Hk & <-). rewrite (Hg k Hk). apply last_written_const.
    + intros v Hv. apply in_map_iff in Hv. destruct Hv as (k' & Ek & Hk'). pose proof (Hg k Hk). pose proof (Hg k' Hk').
      assert (ix k' = ix k) by congruence. assert (F k' = v) by congruence. congruence.
    + left. apply in_map_iff. exists k. auto.
Qed.
Lemma hbind_ok {A B C} (r : hres A) x k (Q : B -> C -> Prop) : r = HOk x -> (exists o h', k x = HOk (o, h') /\ Q o h') ->
  exists o h', hbind r k = HOk (o, h') /\ Q o h'.
Proof. intros -> H. exact H. Qed.
Lemma read_val h1 dims q own f idx z : tree h1 dims q own f -> within dims idx -> f idx = Some z -> read_at h1 q idx = HOk z.
Proof. intros T Hx E. pose proof (read_spec dims h1 q own f idx T Hx) as R. unfold gives in R. now rewrite E in R. Qed.

Lemma NoDup_app_disjoint {A} (l1 l2 : list A) : NoDup l1 -> NoDup l2 -> (forall x, In x l1 -> ~ In x l2) -> NoDup (l1 ++ l2).
Proof.
  induction 1 as [|a l1 Ha H1 IH]; intros H2 D; [exact H2|]. cbn [app]. constructor.
  - rewrite in_app_iff. intros [|]; [auto|]. apply (D a); [now left|auto].
  - apply IH; auto. intros x Hx. apply D. now right.
Qed.
Ltac into := rewrite ?in_app_iff, ?in_seq in *.

Section Enlarging.
Variables (s0 s1 s2 : nat) (v : value) (o : obj) (h : heap) (own : list nat).
Hypotheses (P0 : 0 < s0) (P1 : 0 < s1) (P2 : 0 < s2) (Sl : slot h (Some o) (Some (Full v)) own).
Let n := length (coords v).
Let m := n * s0 * s1 * s2.
Let v' := enlarged s0 s1 s2 v.

Lemma enlarge_ok : exists o' h', make_supercell s0 s1 s2 o h = HOk (o', h') /\ exists new, changes h h' own new /\ slot h' (Some o') (Some (Full v')) new.
Proof.
  destruct Sl as (G & En & b & p & a & c & o1 & o2 & o3 & o4 & Eb & Ep & Ea & Ec & Eown & Hd & T1 & T2 & T3 & T4).
  pose proof G as (Gb & Go & Gn & Gc & Ga). rewrite En in T3, T4. fold n in En, Gn, Gc, Ga, T3, T4.
  assert (forall x, In x own -> x < length h) as Hlt by (intros x Hx; apply alive_lt; eapply slot_alive; eauto).
  rewrite Eown in Hd. pose proof Hd as Hd'. apply NoDup4 in Hd'. destruct Hd' as (N1 & N2 & N3 & N4 & D1 & D2 & D3).
  assert ((forall x, In x o1 -> x < length h) /\ (forall x, In x o2 -> x < length h) /\ (forall x, In x o3 -> x < length h) /\ (forall x, In x o4 -> x < length h)) as (B1 & B2 & B3 & B4).
  { rewrite Eown in Hlt. repeat split; intros x Hx; apply Hlt; rewrite !in_app_iff; tauto. }
  assert (forall i, i < n -> exists z, at1 (numbers v) [i] = Some z) as Va by (intros; eapply at1_some; eauto).
  assert (forall i j, i < n -> j < 3 -> exists z, at2 (coords v) [i; j] = Some z) as Vc by (intros; eapply at2_some; eauto).
  assert (forall i j, i < 3 -> j < 3 -> exists z, at2 (basis v) [i; j] = Some z) as Vb by (intros; eapply at2_some; eauto).
  unfold make_supercell. rewrite Eb, Ep, Ea, Ec, En. cbn [deref].
  (* the copies *)
  destruct (new_array_ok [n] (fun h idx => read_at h a idx) h (got (at1 (numbers v)))) as (h1 & E1 & L1 & A1 & X1); [easy|eapply outcome_read; eauto| |].
  { intros idx Hx. apply within1 in Hx. destruct Hx as (i & -> & Hi). destruct (Va i Hi) as [z Hz]. exists z. unfold got. now rewrite Hz. }
  rewrite E1. cbn [hbind].
  apply (tree_later h h1) in T1, T2, T3, T4; auto.
  destruct (new_array_ok [n; 3] (fun h idx => read_at h c idx) h1 (got (at2 (coords v)))) as (h2 & E2 & L2 & A2 & X2); [easy|eapply outcome_read; eauto| |].
  { intros idx Hx. apply within2 in Hx. destruct Hx as (i & j & -> & Hi & Hj). destruct (Vc i j Hi Hj) as [z Hz]. exists z. unfold got. now rewrite Hz. }
  rewrite E2. cbn [hbind].
  apply (tree_later h1 h2) in T1, T2, T3, T4, X1; auto.
  assert (tree h2 [n] (length h) (seq (length h) 1) (at1 (numbers v))) as Xa.
  { replace 1 with (block_count [n]) by (cbn [block_count]; lia). eapply tree_ext; [|exact X1]. intros idx Hx. cbn beta. apply within1 in Hx.
    destruct Hx as (i & -> & Hi). destruct (Va i Hi) as [z Hz]. unfold got. now rewrite Hz. }
  assert (tree h2 [n; 3] (length h1) (seq (length h1) (block_count [n; 3])) (at2 (coords v))) as Xc.
  { eapply tree_ext; [|exact X2]. intros idx Hx. cbn beta. apply within2 in Hx.
    destruct Hx as (i & j & -> & Hi & Hj). destruct (Vc i j Hi Hj) as [z Hz]. unfold got. now rewrite Hz. }
  clear X1 X2. cbn [block_count] in L1. replace (length h + S (n * 0)) with (length h + 1) in L1 by lia.
  remember (block_count [n; 3]) as kc eqn:Ekc.
  (* the old numbers give way *)
  destruct (free_tree [n] h2 a o3 _ [] T3 N3 eq_refl) as (h3 & E3 & L3 & A3 & F3). rewrite E3. cbn [hbind].
  apply (tree_apart h2 h3 _ _ _ _ o3) in T1; [|exact A3|intros x Hx; apply D1 in Hx; tauto].
  apply (tree_apart h2 h3 _ _ _ _ o3) in T2; [|exact A3|intros x Hx; apply D2 in Hx; tauto].
  apply (tree_apart h2 h3 _ _ _ _ o3) in T4; [|exact A3|intros x Hx Hy; apply D3 in Hy; tauto].
  apply (tree_apart h2 h3 _ _ _ _ o3) in Xa; [|exact A3|intros x Hx Hy; apply B3 in Hy; into; lia].
  apply (tree_apart h2 h3 _ _ _ _ o3) in Xc; [|exact A3|intros x Hx Hy; apply B3 in Hy; into; lia].
  fold m. destruct (allocate_tree [m] false h3 ltac:(easy)) as (h4 & E4 & L4 & A4 & Xn). rewrite E4. cbn [hbind].
  apply (tree_later h3 h4) in T1, T2, T4, Xa, Xc; auto.
  replace (block_count [m]) with 1 in * by (cbn [block_count]; lia).
  (* the old coordinates give way *)
  destruct (free_tree [n; 3] h4 c o4 _ [n] T4 N4 eq_refl) as (h5 & E5 & L5 & A5 & F5). rewrite E5. cbn [hbind].
  apply (tree_apart h4 h5 _ _ _ _ o4) in T1; [|exact A5|intros x Hx; apply D1 in Hx; tauto].
  apply (tree_apart h4 h5 _ _ _ _ o4) in T2; [|exact A5|intros x Hx; apply D2 in Hx; tauto].
  apply (tree_apart h4 h5 _ _ _ _ o4) in Xa; [|exact A5|intros x Hx Hy; apply B4 in Hy; into; lia].
  apply (tree_apart h4 h5 _ _ _ _ o4) in Xc; [|exact A5|intros x Hx Hy; apply B4 in Hy; into; lia].
  apply (tree_apart h4 h5 _ _ _ _ o4) in Xn; [|exact A5|intros x Hx Hy; apply B4 in Hy; into; lia].
  destruct (allocate_tree [m; 3] false h5 ltac:(easy)) as (h6 & E6 & L6 & A6 & Xd). rewrite E6. cbn [hbind].
  apply (tree_later h5 h6) in T1, T2, Xa, Xc, Xn; auto.
  remember (block_count [m; 3]) as kd eqn:Ekd.
  (* the new numbers *)
  rewrite flat_map_prod.
  destruct (assigns_fun (list_prod (seq 0 (s0 * s1 * s2)) (seq 0 n)) (fun k => [fst k * n + snd k]) (fun k g => read_at g (length h) [snd k])
    (fun k => val (got (at1 (numbers v)) [snd k])) [m] (seq (length h3) 1) h6 (length h3) (fun _ => None) (at1 (numbers v'))) as (h7 & E7 & L7 & A7 & Xn').
  { exact Xn. }
  { apply seq_NoDup. }
  { intros [c1 a1] Hk. apply in_prod_iff in Hk. rewrite !in_seq in Hk. cbn [fst snd]. apply within_1. unfold m. nia. }
  { intros [c1 a1] g Hk Lg Ag. apply in_prod_iff in Hk. rewrite !in_seq in Hk. cbn [snd]. destruct (Va a1 ltac:(lia)) as [z Hz].
    unfold got. rewrite Hz. apply (read_val g [n] _ (seq (length h) 1) (at1 (numbers v))); [|apply within_1; lia|exact Hz].
    apply (tree_apart h6 g _ _ _ _ (seq (length h3) 1)); [exact Xa|exact Ag|intros x Hx Hy; into; lia]. }
  { intros idx Hx. apply within1 in Hx. destruct Hx as (i & -> & Hi). exists (i / n, i mod n). cbn [fst snd].
    pose proof (Nat.div_mod i n ltac:(lia)) as Dm. pose proof (Nat.mod_upper_bound i n ltac:(lia)) as Mb. split.
    - apply in_prod_iff. rewrite !in_seq. split; [|lia]. split; [lia|]. apply Nat.div_lt_upper_bound; [lia|]. unfold m in Hi. lia.
    - f_equal. lia. }
  { intros [c1 a1] Hk. apply in_prod_iff in Hk. rewrite !in_seq in Hk. cbn [fst snd]. destruct (Va a1 ltac:(lia)) as [z Hz].
    unfold got. rewrite Hz. cbn [val at1]. unfold v', enlarged. cbn [numbers]. rewrite <- Ga at 1. rewrite nth_concat_repeat by lia. exact Hz. }
  eapply hbind_ok; [exact E7|]. cbv zeta. rewrite !cells_range, !cells_first.
  apply (tree_apart h6 h7 _ _ _ _ (seq (length h3) 1)) in T1; [|exact A7|intros x Hx Hy; apply B1 in Hx; into; lia].
  apply (tree_apart h6 h7 _ _ _ _ (seq (length h3) 1)) in T2; [|exact A7|intros x Hx Hy; apply B2 in Hx; into; lia].
  apply (tree_apart h6 h7 _ _ _ _ (seq (length h3) 1)) in Xa; [|exact A7|intros x Hx Hy; into; lia].
  apply (tree_apart h6 h7 _ _ _ _ (seq (length h3) 1)) in Xc; [|exact A7|intros x Hx Hy; into; lia].
  apply (tree_apart h6 h7 _ _ _ _ (seq (length h3) 1)) in Xd; [|exact A7|intros x Hx Hy; into; lia].
  clear Xn. rename Xn' into Xn.
  (* the new coordinates *)
  change (flat_map (fun ii => flat_map (fun jj => map (fun kk => (ii, jj, kk)) (cells s2)) (cells s1)) (cells s0)) with (shifts s0 s1 s2).
  change (flat_map (fun s => map (fun a => (s, a)) (seq 0 n)) (shifts s0 s1 s2)) with (places n (shifts s0 s1 s2)).
  set (pl := places n (shifts s0 s1 s2)).
  assert (length pl = m) as Lpl by (unfold pl, m; rewrite places_length, shifts_length; ring).
  rewrite (flat_map_ext _ (fun q : nat * (Z * Z * Z * nat) => map (fun j => ([fst q; j], fun g =>
    hbind (read_at g (length h1) [snd (snd q); j]) (fun x => hbind (read_at g b [0; j]) (fun p => hbind (read_at g b [1; j]) (fun y =>
    hbind (read_at g b [2; j]) (fun r => HOk (x + p * fst (fst (fst (snd q))) + y * snd (fst (fst (snd q))) + r * snd (fst (snd q)))%Z)))))) (seq 0 3)))
    by (intros (i & ((ii & jj) & kk) & a1); reflexivity).
  rewrite flat_map_prod.
  assert (forall i s a1, nth_error pl i = Some (s, a1) -> forall j, j < 3 -> i < m /\ a1 < n /\
    exists x p y r, at2 (coords v) [a1; j] = Some x /\ at2 (basis v) [0; j] = Some p /\ at2 (basis v) [1; j] = Some y /\ at2 (basis v) [2; j] = Some r /\
      at2 (coords v') [i; j] = Some (x + p * fst (fst s) + y * snd (fst s) + r * snd s)%Z) as Hpl.
  { intros i [[ii jj] kk] a1 Hi j Hj. assert (i < m) as Him by (rewrite <- Lpl; apply nth_error_Some; congruence).
    assert (a1 < n) as Ha1 by (eapply in_places; eapply nth_error_In; exact Hi). split; [auto|]. split; [auto|].
    destruct (Vc a1 j Ha1 Hj) as [x Hx]. destruct (Vb 0 j ltac:(lia) Hj) as [y0 Hy0]. destruct (Vb 1 j ltac:(lia) Hj) as [y1 Hy1]. destruct (Vb 2 j ltac:(lia) Hj) as [y2 Hy2].
    exists x, y0, y1, y2. do 4 (split; [assumption|]). cbn [at2]. unfold v'. rewrite enlarged_coords. fold n. fold pl. rewrite nth_error_map, Hi. cbn [option_map fst snd].
    destruct (rows_row n _ a1 Gc Ha1) as (r & Er & Lr). rewrite (nth_error_nth _ _ _ Er). cbn [at2] in Hx. rewrite Er in Hx.
    cbn [move]. rewrite (vadd_at _ _ j (ii * y0 + jj * y1 + kk * y2)%Z x); [f_equal; ring|now apply vcomb_at|exact Hx]. }
  destruct (assigns_fun (list_prod (combine (seq 0 (length pl)) pl) (seq 0 3)) (fun k => [fst (fst k); snd k])
    (fun k g => let q := fst k in let j := snd k in
       hbind (read_at g (length h1) [snd (snd q); j]) (fun x => hbind (read_at g b [0; j]) (fun p => hbind (read_at g b [1; j]) (fun y =>
       hbind (read_at g b [2; j]) (fun r => HOk (x + p * fst (fst (fst (snd q))) + y * snd (fst (fst (snd q))) + r * snd (fst (snd q)))%Z)))))
    (fun k => val (got (at2 (coords v')) [fst (fst k); snd k])) [m; 3] (seq (length h5) kd) h7 (length h5) (fun _ => None) (at2 (coords v'))) as (h8 & E8 & L8 & A8 & Xd').
  { exact Xd. }
  { apply seq_NoDup. }
  { intros [[i [s a1]] j] Hk. apply in_prod_iff in Hk. destruct Hk as [Hk Hj]. apply in_combine_seq in Hk. rewrite in_seq in Hj. cbn [fst snd].
    destruct (Hpl i s a1 Hk j ltac:(lia)) as (Him & _). apply within_2; lia. }
  { intros [[i [s a1]] j] g Hk Lg Ag. apply in_prod_iff in Hk. destruct Hk as [Hk Hj]. apply in_combine_seq in Hk. rewrite in_seq in Hj. cbn [fst snd].
    destruct (Hpl i s a1 Hk j ltac:(lia)) as (Him & Ha1 & x & y0 & y1 & y2 & Hx & Hy0 & Hy1 & Hy2 & Hv).
    assert (tree g [n; 3] (length h1) (seq (length h1) kc) (at2 (coords v))) as Xc'
      by (apply (tree_apart h7 g _ _ _ _ (seq (length h5) kd)); [exact Xc|exact Ag|intros z Hz Hw; into; lia]).
    assert (tree g [3; 3] b o1 (at2 (basis v))) as T1'
      by (apply (tree_apart h7 g _ _ _ _ (seq (length h5) kd)); [exact T1|exact Ag|intros z Hz Hw; apply B1 in Hz; into; lia]).
    rewrite (read_val _ _ _ _ _ [a1; j] x Xc') by (auto; apply within_2; lia). cbn [hbind].
    rewrite (read_val _ _ _ _ _ [0; j] y0 T1') by (auto; apply within_2; lia). cbn [hbind].
    rewrite (read_val _ _ _ _ _ [1; j] y1 T1') by (auto; apply within_2; lia). cbn [hbind].
    rewrite (read_val _ _ _ _ _ [2; j] y2 T1') by (auto; apply within_2; lia). cbn [hbind].
    unfold got. rewrite Hv. reflexivity. }
  { intros idx Hx. apply within2 in Hx. destruct Hx as (i & j & -> & Hi & Hj). destruct (nth_error pl i) as [q|] eqn:Eq; [|apply nth_error_None in Eq; lia].
    exists ((i, q), j). split; [|reflexivity]. apply in_prod_iff. split; [now apply nth_combine_seq|apply in_seq; lia]. }
  { intros [[i [s a1]] j] Hk. apply in_prod_iff in Hk. destruct Hk as [Hk Hj]. apply in_combine_seq in Hk. rewrite in_seq in Hj. cbn [fst snd].
    destruct (Hpl i s a1 Hk j ltac:(lia)) as (Him & Ha1 & x & y0 & y1 & y2 & Hx & Hy0 & Hy1 & Hy2 & Hv). unfold got. rewrite Hv. reflexivity. }
  eapply hbind_ok; [exact E8|].
  apply (tree_apart h7 h8 _ _ _ _ (seq (length h5) kd)) in T1; [|exact A8|intros x Hx Hy; apply B1 in Hx; into; lia].
  apply (tree_apart h7 h8 _ _ _ _ (seq (length h5) kd)) in T2; [|exact A8|intros x Hx Hy; apply B2 in Hx; into; lia].
  apply (tree_apart h7 h8 _ _ _ _ (seq (length h5) kd)) in Xa; [|exact A8|intros x Hx Hy; into; lia].
  apply (tree_apart h7 h8 _ _ _ _ (seq (length h5) kd)) in Xc; [|exact A8|intros x Hx Hy; into; lia].
  apply (tree_apart h7 h8 _ _ _ _ (seq (length h5) kd)) in Xn; [|exact A8|intros x Hx Hy; into; lia].
  clear Xd. rename Xd' into Xd.
  (* the origin *)
  assert (forall j, j < 3 -> exists y0 y1 y2, at2 (basis v) [0; j] = Some y0 /\ at2 (basis v) [1; j] = Some y1 /\ at2 (basis v) [2; j] = Some y2 /\
    at1 (origin v') [j] = Some (first_cell s0 * y0 + first_cell s1 * y1 + first_cell s2 * y2)%Z) as Hor.
  { intros j Hj. destruct (Vb 0 j ltac:(lia) Hj) as [y0 Hy0]. destruct (Vb 1 j ltac:(lia) Hj) as [y1 Hy1]. destruct (Vb 2 j ltac:(lia) Hj) as [y2 Hy2].
    exists y0, y1, y2. do 3 (split; [assumption|]). unfold v', enlarged. cbn [origin at1]. now apply vcomb_at. }
  destruct (assigns_fun (seq 0 3) (fun j => [j]) (fun j g => hbind (read_at g b [0; j]) (fun p => hbind (read_at g b [1; j]) (fun q =>
    hbind (read_at g b [2; j]) (fun r => HOk (first_cell s0 * p + first_cell s1 * q + first_cell s2 * r)%Z))))
    (fun j => val (got (at1 (origin v')) [j])) [3] o2 h8 p (at1 (origin v)) (at1 (origin v'))) as (h9 & E9 & L9 & A9 & T2').
  { exact T2. }
  { exact N2. }
  { intros j Hj. apply in_seq in Hj. apply within_1. lia. }
  { intros j g Hj Lg Ag. apply in_seq in Hj. destruct (Hor j ltac:(lia)) as (y0 & y1 & y2 & Hy0 & Hy1 & Hy2 & Hv).
    assert (tree g [3; 3] b o1 (at2 (basis v))) as T1' by (apply (tree_apart h8 g _ _ _ _ o2); [exact T1|exact Ag|intros z Hz; apply D1 in Hz; tauto]).
    rewrite (read_val _ _ _ _ _ [0; j] y0 T1') by (auto; apply within_2; lia). cbn [hbind].
    rewrite (read_val _ _ _ _ _ [1; j] y1 T1') by (auto; apply within_2; lia). cbn [hbind].
    rewrite (read_val _ _ _ _ _ [2; j] y2 T1') by (auto; apply within_2; lia). cbn [hbind].
    unfold got. rewrite Hv. reflexivity. }
  { intros idx Hx. apply within1 in Hx. destruct Hx as (i & -> & Hi). exists i. split; [apply in_seq; lia|reflexivity]. }
  { intros j Hj. apply in_seq in Hj. destruct (Hor j ltac:(lia)) as (y0 & y1 & y2 & _ & _ & _ & Hv). unfold got. rewrite Hv. reflexivity. }
  eapply hbind_ok; [exact E9|].
  apply (tree_apart h8 h9 _ _ _ _ o2) in T1; [|exact A9|intros x Hx; apply D1 in Hx; tauto].
  apply (tree_apart h8 h9 _ _ _ _ o2) in Xa; [|exact A9|intros x Hx Hy; apply B2 in Hy; into; lia].
  apply (tree_apart h8 h9 _ _ _ _ o2) in Xc; [|exact A9|intros x Hx Hy; apply B2 in Hy; into; lia].
  apply (tree_apart h8 h9 _ _ _ _ o2) in Xn; [|exact A9|intros x Hx Hy; apply B2 in Hy; into; lia].
  apply (tree_apart h8 h9 _ _ _ _ o2) in Xd; [|exact A9|intros x Hx Hy; apply B2 in Hy; into; lia].
  clear T2. rename T2' into T2.
  (* the basis *)
  rewrite (flat_map_ext _ (fun q : nat * nat => map (fun j => ([fst q; j], fun g => hbind (read_at g b [fst q; j]) (fun p => HOk (p * Z.of_nat (snd q))%Z))) (seq 0 3)))
    by (intros (i & s); reflexivity).
  rewrite flat_map_prod.
  assert (forall i s j, In (i, s) [(0, s0); (1, s1); (2, s2)] -> j < 3 -> i < 3 /\ exists z, at2 (basis v) [i; j] = Some z /\ at2 (basis v') [i; j] = Some (z * Z.of_nat s)%Z) as Hba.
  { intros i s j Hi Hj. destruct (rows3 _ Gb) as (za & zb & zc & zd & ze & zf & zg & zh & zi & Ebs).
    unfold v', enlarged. cbn [basis]. rewrite Ebs.
    destruct Hi as [Hi|[Hi|[Hi|[]]]]; injection Hi as <- <-; (split; [lia|]); destruct j as [|[|[|]]]; try lia; eexists; (split; [reflexivity|]);
      cbn [combine map at2 nth_error vscale fst snd]; f_equal; ring. }
  destruct (assigns_each (list_prod [(0, s0); (1, s1); (2, s2)] (seq 0 3)) (fun k => [fst (fst k); snd k])
    (fun k g => hbind (read_at g b [fst (fst k); snd k]) (fun p => HOk (p * Z.of_nat (snd (fst k)))%Z))
    (fun k => val (got (at2 (basis v')) [fst (fst k); snd k])) [3; 3] o1 h9 b (at2 (basis v)) (at2 (basis v'))) as (h10 & E10 & L10 & A10 & T1').
  { exact T1. }
  { exact N1. }
  { cbn [list_prod seq map app fst snd]. repeat constructor; cbn [In]; intuition discriminate. }
  { intros [[i s] j] Hk. apply in_prod_iff in Hk. destruct Hk as [Hk Hj]. apply in_seq in Hj. destruct (Hba i s j Hk ltac:(lia)) as (Hi & _). apply within_2; cbn [fst snd]; lia. }
  { intros [[i s] j] g f1 Hk Tg Hf. apply in_prod_iff in Hk. destruct Hk as [Hk Hj]. apply in_seq in Hj. cbn [fst snd] in *.
    destruct (Hba i s j Hk ltac:(lia)) as (Hi & z & Hz & Hv). rewrite (read_val _ _ _ _ _ [i; j] z Tg) by (try congruence; apply within_2; lia). cbn [hbind].
    unfold got. rewrite Hv. reflexivity. }
  { intros idx Hx. apply within2 in Hx. destruct Hx as (i & j & -> & Hi & Hj). exists ((i, nth i [s0; s1; s2] 0), j). split; [|reflexivity].
    apply in_prod_iff. split; [|apply in_seq; lia]. destruct i as [|[|[|]]]; try lia; cbn [nth In]; auto. }
  { intros [[i s] j] Hk. apply in_prod_iff in Hk. destruct Hk as [Hk Hj]. apply in_seq in Hj. cbn [fst snd].
    destruct (Hba i s j Hk ltac:(lia)) as (Hi & z & Hz & Hv). unfold got. rewrite Hv. reflexivity. }
  eapply hbind_ok; [exact E10|].
  apply (tree_apart h9 h10 _ _ _ _ o1) in T2; [|exact A10|intros x Hx Hy; apply D1 in Hy; tauto].
  apply (tree_apart h9 h10 _ _ _ _ o1) in Xa; [|exact A10|intros x Hx Hy; apply B1 in Hy; into; lia].
  apply (tree_apart h9 h10 _ _ _ _ o1) in Xc; [|exact A10|intros x Hx Hy; apply B1 in Hy; into; lia].
  apply (tree_apart h9 h10 _ _ _ _ o1) in Xn; [|exact A10|intros x Hx Hy; apply B1 in Hy; into; lia].
  apply (tree_apart h9 h10 _ _ _ _ o1) in Xd; [|exact A10|intros x Hx Hy; apply B1 in Hy; into; lia].
  clear T1. rename T1' into T1.
  (* the copies are given back *)
  destruct (free_tree [n] h10 (length h) _ _ [] Xa (seq_NoDup _ _) eq_refl) as (h11 & E11 & L11 & A11 & F11).
  eapply hbind_ok; [exact E11|].
  apply (tree_apart h10 h11 _ _ _ _ (seq (length h) 1)) in T1; [|exact A11|intros x Hx Hy; apply B1 in Hx; into; lia].
  apply (tree_apart h10 h11 _ _ _ _ (seq (length h) 1)) in T2; [|exact A11|intros x Hx Hy; apply B2 in Hx; into; lia].
  apply (tree_apart h10 h11 _ _ _ _ (seq (length h) 1)) in Xc; [|exact A11|intros x Hx Hy; into; lia].
  apply (tree_apart h10 h11 _ _ _ _ (seq (length h) 1)) in Xn; [|exact A11|intros x Hx Hy; into; lia].
  apply (tree_apart h10 h11 _ _ _ _ (seq (length h) 1)) in Xd; [|exact A11|intros x Hx Hy; into; lia].
  destruct (free_tree [n; 3] h11 (length h1) _ _ [n] Xc (seq_NoDup _ _) eq_refl) as (h12 & E12 & L12 & A12 & F12).
  eapply hbind_ok; [exact E12|].
  apply (tree_apart h11 h12 _ _ _ _ (seq (length h1) kc)) in T1; [|exact A12|intros x Hx Hy; apply B1 in Hx; into; lia].
  apply (tree_apart h11 h12 _ _ _ _ (seq (length h1) kc)) in T2; [|exact A12|intros x Hx Hy; apply B2 in Hx; into; lia].
  apply (tree_apart h11 h12 _ _ _ _ (seq (length h1) kc)) in Xn; [|exact A12|intros x Hx Hy; into; lia].
  apply (tree_apart h11 h12 _ _ _ _ (seq (length h1) kc)) in Xd; [|exact A12|intros x Hx Hy; into; lia].
  eexists. exists h12. split; [reflexivity|]. exists (o1 ++ o2 ++ seq (length h3) 1 ++ seq (length h5) kd). split.
  - (* only this structure's blocks changed *)
    assert (forall x, x < length h -> In x o1 \/ In x o2 \/ nth_error h12 x = nth_error h6 x) as Late.
    { intros x Hx. destruct (in_dec Nat.eq_dec x o1) as [I1|I1]; [auto|]. destruct (in_dec Nat.eq_dec x o2) as [I2|I2]; [auto|].
      right; right. rewrite A12, A11, A10, A9, A8, A7; auto; into; lia. }
    split; [lia|]. split; [|split; [|split]].
    + intros x Hx Hn. rewrite Eown, !in_app_iff in Hn. destruct (Late x Hx) as [|[|Hl]]; [tauto|tauto|]. rewrite Hl.
      rewrite A6 by lia. rewrite A5 by tauto. rewrite A4 by lia. rewrite A3 by tauto. rewrite A2 by lia. apply A1. lia.
    + intros x Hx Hn. pose proof (Hlt x Hx) as Hxl. rewrite Eown, !in_app_iff in Hx. rewrite !in_app_iff in Hn.
      destruct (Late x Hxl) as [|[|Hl]]; [tauto|tauto|]. rewrite Hl. rewrite A6 by lia.
      destruct (in_dec Nat.eq_dec x o4) as [I4|I4]; [now apply F5|]. rewrite A5 by auto. rewrite A4 by lia. apply F3. tauto.
    + intros x Hx Hn. rewrite !in_app_iff, !in_seq in Hn.
      destruct (in_dec Nat.eq_dec x (seq (length h1) kc)) as [Ic|Ic]; [now apply F12|]. rewrite A12 by auto. apply F11. into. lia.
    + intros x Hx. rewrite !in_app_iff, !in_seq in Hx. rewrite Eown, !in_app_iff. intuition lia.
  - cbn [slot]. split; [now apply enlarged_good|]. split; [cbn [o_n]; unfold v'; rewrite enlarged_length; reflexivity|].
    exists b, p, (length h3), (length h5), o1, o2, (seq (length h3) 1), (seq (length h5) kd). cbn [o_basis o_origin o_numbers o_coords o_n].
    do 5 (split; [reflexivity|]). split.
    { apply NoDup_app_disjoint; [exact N1|apply NoDup_app_disjoint; [exact N2|apply NoDup_app_disjoint; [apply seq_NoDup|apply seq_NoDup|]|]|].
      - intros x Hx Hy. into. lia.
      - intros x Hx Hy. apply B2 in Hx. into. lia.
      - intros x Hx Hy. pose proof (B1 x Hx). apply D1 in Hx. into. intuition lia. }
    split; [exact T1|]. split; [exact T2|]. split; [exact Xn|exact Xd].
Qed.
End Enlarging.

(** A structure without atoms, or one whose values were never given, cannot be enlarged. *)
Lemma hbind_err {A B} (r : hres A) (k : A -> hres B) e : r = HErr e -> exists e', hbind r k = HErr e'.
Proof. intros ->. exists e. reflexivity. Qed.
Lemma enlarge_unset s0 s1 s2 o h n own : slot h (Some o) (Some (Unset n)) own -> exists e, make_supercell s0 s1 s2 o h = HErr e.
Proof.
  intros (Hn & En & b & p & a & c & o1 & o2 & o3 & o4 & Eb & Ep & Ea & Ec & _ & Hd & T1 & T2 & T3 & T4).
  unfold make_supercell. rewrite Ea, En. cbn [deref]. rewrite En in T3.
  destruct (new_array_bad [n] (fun h idx => read_at h a idx) h (got (fun _ => None)) [0] Uninitialised) as [e E]; [easy| | |reflexivity|].
  - eapply outcome_read; eauto.
  - now apply within_1.
  - eapply hbind_err; eauto.
Qed.
Lemma enlarge_empty s0 s1 s2 o h own : slot h (Some o) (Some Empty) own -> exists e, make_supercell s0 s1 s2 o h = HErr e.
Proof.
  intros (_ & En & Dd). unfold make_supercell. rewrite En.
  destruct (new_array_ok [0] (fun h idx => deref (o_numbers o) (fun b => read_at h b idx)) h (fun _ => HErr NoObject)) as (h1 & E1 & L1 & A1 & _); [easy| | |].
  { intros idx h1 Hx. apply within1 in Hx. destruct Hx as (i & _ & Hi). lia. }
  { intros idx Hx. apply within1 in Hx. destruct Hx as (i & _ & Hi). lia. }
  rewrite E1. cbn [hbind].
  destruct (new_array_ok [0; 3] (fun h idx => deref (o_coords o) (fun b => read_at h b idx)) h1 (fun _ => HErr NoObject)) as (h2 & E2 & L2 & A2 & _); [easy| | |].
  { intros idx h2 Hx. apply within2 in Hx. destruct Hx as (i & j & _ & Hi & _). lia. }
  { intros idx Hx. apply within2 in Hx. destruct Hx as (i & j & _ & Hi & _). lia. }
  rewrite E2. cbn [hbind]. destruct (o_numbers o) as [b|]; cbn [deref dead] in *; [|eexists; reflexivity].
  assert (b < length h) as Hb by (apply nth_error_Some; congruence).
  assert (nth_error h2 b = Some None) as D2 by (rewrite A2, A1; auto; lia).
  cbn [free_nested]. unfold hfree. rewrite D2. eexists. reflexivity.
Qed.
