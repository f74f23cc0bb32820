(** Lemmas about neighbour tables. *)
From Verif Require Import Arr Vec StructModel SiteIndexModel SeModel NeighModel NeighSpec StructProofs.
From Coq Require Import ZifyBool.
Open Scope nat_scope.

Lemma list_max0_from l : forall m, let r := fold_left (fun m k => if m <? k then k else m) l m in
  m <= r /\ (forall k, In k l -> k <= r) /\ (r = m \/ In r l).
Proof.
  induction l as [|x l IH]; intros m; [cbn; intuition lia|]. cbn zeta in *. cbn [fold_left]. destruct (IH (if m <? x then x else m)) as (H1 & H2 & H3).
  set (r := fold_left _ l _) in *. clearbody r. assert (m <= (if m <? x then x else m) /\ x <= (if m <? x then x else m)) by (destruct (m <? x) eqn:E; lia).
  split; [lia|]. split.
  - intros k [<-|K]; [lia|exact (H2 k K)].
  - destruct H3 as [->|H3]; [|right; right; exact H3]. destruct (m <? x); [right; left; reflexivity|left; reflexivity].
Qed.
Lemma list_max0_spec l : (forall k, In k l -> k <= list_max0 l) /\ (list_max0 l = 0 \/ In (list_max0 l) l).
Proof. destruct (list_max0_from l 0) as (_ & H2 & H3). split; assumption. Qed.
Lemma list_max0_unique l m : (forall k, In k l -> k <= m) -> (m = 0 \/ In m l) -> list_max0 l = m.
Proof.
  intros H1 H2. destruct (list_max0_spec l) as [G1 G2]. apply Nat.le_antisymm.
  - destruct G2 as [->|G2]; [lia|exact (H1 _ G2)].
  - destruct H2 as [->|H2]; [lia|exact (G1 _ H2)].
Qed.

Lemma mapM_get {A} (l : list A) d idxs : Forall (fun i => i < length l) idxs -> mapM (get l) idxs = Ok (map (fun i => nth i l d) idxs).
Proof. intros H. induction H as [|i r Hi Hr IH]; [reflexivity|]. cbn [mapM map]. rewrite (get_ok l i d Hi), IH. reflexivity. Qed.
Lemma mapM_forall2_exists {A B} (f : A -> result B) (Q : A -> B -> Prop) l : (forall x, In x l -> exists y, f x = Ok y /\ Q x y) ->
  exists ys, mapM f l = Ok ys /\ Forall2 Q l ys.
Proof.
  induction l as [|x l IH]; intros H; [exists []; split; [reflexivity|constructor]|]. destruct (H x (or_introl eq_refl)) as (y & E & q).
  destruct IH as (ys & E2 & F); [intros z Hz; apply H; right; exact Hz|]. exists (y :: ys). cbn [mapM]. rewrite E, E2. split; [reflexivity|constructor; assumption].
Qed.
Lemma filter_sorted_prefix {A} (lt : A -> A -> Prop) (p : A -> bool) l : StronglySorted lt l -> (forall x y, In x l -> In y l -> lt x y -> p y = true -> p x = true) ->
  firstn (length (filter p l)) l = filter p l.
Proof.
  induction 1 as [|x l S IH F]; intros H; [reflexivity|]. cbn [filter]. destruct (p x) eqn:E.
  - cbn [length firstn]. f_equal. apply IH. intros a b Ha Hb. apply H; right; assumption.
  - assert (N : filter p l = []).
    { rewrite Forall_forall in F. destruct (filter p l) as [|y r] eqn:Ef; [reflexivity|]. exfalso. assert (Iy : In y (filter p l)) by (rewrite Ef; left; reflexivity). apply filter_In in Iy. destruct Iy as [Iy py].
      rewrite (H x y) in E; [discriminate|left; reflexivity|right; exact Iy|apply F; exact Iy|exact py]. }
    rewrite N. reflexivity.
Qed.
Lemma sorted_filter {A} (lt : A -> A -> Prop) (p : A -> bool) l : StronglySorted lt l -> StronglySorted lt (filter p l).
Proof.
  induction 1 as [|x l S IH F]; [constructor|]. cbn [filter]. destruct (p x); [|exact IH]. constructor; [exact IH|].
  rewrite Forall_forall in *. intros y Hy. apply filter_In in Hy. apply F, Hy.
Qed.
Lemma sorted_weaken {A} (R1 R2 : A -> A -> Prop) l : StronglySorted R1 l -> (forall x y, In x l -> In y l -> R1 x y -> R2 x y) -> StronglySorted R2 l.
Proof.
  induction 1 as [|x l S IH F]; intros H; [constructor|]. constructor; [apply IH; intros; apply H; [right|right|]; assumption|].
  rewrite Forall_forall in *. intros y Hy. apply H; [left; reflexivity|right; exact Hy|exact (F y Hy)].
Qed.
Lemma filter_map_length {A B} (f : A -> B) (p : B -> bool) l : length (filter p (map f l)) = length (filter (fun x => p (f x)) l).
Proof. induction l as [|x l IH]; [reflexivity|]. cbn. destruct (p (f x)); cbn; rewrite IH; reflexivity. Qed.
Lemma list_as_map {A} (l : list A) d : l = map (fun i => nth i l d) (seq 0 (length l)).
Proof.
  apply nth_error_ext; [rewrite map_length, seq_length; reflexivity|]. intros i Hi. rewrite nth_error_map, (nth_error_nth' (seq 0 (length l)) 0) by (rewrite seq_length; exact Hi).
  rewrite seq_nth by exact Hi. cbn. apply nth_error_nth'. exact Hi.
Qed.
Lemma lists_length {A} (good : nat -> A -> Prop) atoms s1 s2 : lists good atoms s1 -> lists good atoms s2 -> length s1 = length s2.
Proof.
  intros [N1 H1] [N2 H2]. apply Nat.le_antisymm; apply NoDup_incl_length; try assumption; intros j Hj; [apply H2, H1|apply H1, H2]; exact Hj.
Qed.
Lemma number_unique {A} (good : nat -> A -> Prop) atoms n m : number good atoms n -> number good atoms m -> n = m.
Proof. intros (s1 & L1 & <-) (s2 & L2 & <-). exact (lists_length _ _ _ _ L1 L2). Qed.
(** Counting by a boolean test. *)
Lemma number_filter {A} (good : nat -> A -> Prop) (test : nat * A -> bool) atoms : (forall j a, nth_error atoms j = Some a -> (test (j, a) = true <-> good j a)) ->
  number good atoms (length (filter test (enumerate atoms))).
Proof.
  intros H. assert (W : forall l k, (forall j a, nth_error l j = Some a -> (test (k + j, a) = true <-> good (k + j) a)) ->
    exists sel, NoDup sel /\ (forall j, In j sel <-> exists i a, j = k + i /\ nth_error l i = Some a /\ good j a) /\ length sel = length (filter test (combine (seq k (length l)) l))).
  { clear. induction l as [|a l IH]; intros k H; [exists []; split; [constructor|split; [|reflexivity]]; intros j; split; [intros []|intros (i & a & _ & E & _); destruct i; discriminate]|].
    destruct (IH (S k)) as (sel & N & I & L). { intros j b Hj. specialize (H (S j) b Hj). replace (S k + j) with (k + S j) by lia. exact H. }
    assert (H0 := H 0 a eq_refl). rewrite Nat.add_0_r in H0. cbn [length seq combine filter]. destruct (test (k, a)) eqn:E.
    - exists (k :: sel). split; [constructor; [|exact N]; intros Hk; apply I in Hk; destruct Hk as (i & _ & Hi & _); lia|]. split; [|cbn; lia].
      intros j. cbn [In]. rewrite I. split.
      + intros [<-|(i & b & -> & Hi & G)]; [exists 0, a; split; [lia|split; [reflexivity|apply H0; reflexivity]]|exists (S i), b; split; [lia|split; assumption]].
      + intros (i & b & -> & Hi & G). destruct i as [|i]; [left; lia|right; exists i, b; split; [lia|split; assumption]].
    - exists sel. split; [exact N|]. split; [|exact L]. intros j. rewrite I. split.
      + intros (i & b & -> & Hi & G). exists (S i), b. split; [lia|split; assumption].
      + intros (i & b & -> & Hi & G). destruct i as [|i]; [|exists i, b; split; [lia|split; assumption]]. exfalso. cbn in Hi. injection Hi as <-. rewrite Nat.add_0_r in G. apply H0 in G. congruence. }
  destruct (W atoms 0 H) as (sel & N & I & L). exists sel. split; [split; [exact N|]|exact L]. intros j. rewrite I. split.
  - intros (i & a & -> & Hi & G). exists a. split; assumption.
  - intros (a & Hi & G). exists j, a. split; [reflexivity|split; assumption].
Qed.

Section Neigh.
Context {P D : Type}.
Variables (dist : P -> P -> D) (leb : D -> D -> bool) (argsort : list D -> list nat) (zeroP : P) (zeroD : D).
Hypothesis Hleb : total_preorder leb.
Hypothesis Hsort : sorts leb argsort.
Implicit Types sup : list (Z * P).

Lemma shows_map {A} (f : Z * P -> A) zero w sup sel : Forall (fun j => j < length sup) sel -> length sel <= w ->
  shows f zero w sup sel (map (fun j => f (nth j sup (0%Z, zeroP))) sel ++ repeat zero (w - length sel)).
Proof.
  intros H L. exists (map (fun j => f (nth j sup (0%Z, zeroP))) sel). split; [|split; [exact L|reflexivity]].
  clear L. induction H as [|j r Hj Hr IH]; cbn [map]; constructor; [|exact IH]. exists (nth j sup (0%Z, zeroP)). split; [apply nth_error_nth'; exact Hj|reflexivity].
Qed.

Lemma firstn_repeat_le {A} (x : A) a b : b <= a -> firstn b (repeat x a) = repeat x b.
Proof. revert a. induction b as [|b IH]; intros a H; [reflexivity|]. destruct a as [|a]; [lia|]. cbn. rewrite IH by lia. reflexivity. Qed.
Lemma forall2_len {A B} (Q : A -> B -> Prop) l1 l2 : Forall2 Q l1 l2 -> length l1 = length l2.
Proof. induction 1; cbn; lia. Qed.
Lemma shows_firstn {A} (f : Z * P -> A) zero n w sup sel row : shows f zero n sup sel row -> length sel <= w -> w <= n -> shows f zero w sup sel (firstn w row).
Proof.
  intros (vals & F & L & ->) Lw Wn. exists vals. split; [exact F|]. split; [exact Lw|]. assert (E := forall2_len _ _ _ F).
  rewrite firstn_app, <- E, (firstn_all2 vals) by lia. f_equal. apply firstn_repeat_le. lia.
Qed.

Lemma lists_bound {A} (good : nat -> A -> Prop) atoms sel : lists good atoms sel -> Forall (fun j => j < length atoms) sel.
Proof. intros [_ H]. apply Forall_forall. intros j Hj. apply H in Hj. destruct Hj as (a & Ha & _). apply nth_error_Some. congruence. Qed.
Lemma lists_le {A} (good : nat -> A -> Prop) atoms sel : lists good atoms sel -> length sel <= length atoms.
Proof.
  intros H. assert (B := lists_bound _ _ _ H). rewrite <- (seq_length (length atoms) 0). apply NoDup_incl_length; [apply H|].
  intros j Hj. rewrite Forall_forall in B. apply in_seq. specialize (B j Hj). lia.
Qed.

Lemma key_row_ok sup rcut c : c < length sup ->
  exists sel an d cc cen, key_row dist leb argsort zeroP zeroD sup rcut c = Ok (length sel, (an, d, cc)) /\
    nth_error sup c = Some cen /\ lists (within dist leb (snd cen) rcut) sup sel /\ nearest_first dist leb sup (snd cen) sel /\
    shows fst 0%Z (length sup) sup sel an /\ shows (fun a => dist (snd a) (snd cen)) zeroD (length sup) sup sel d /\ shows snd zeroP (length sup) sup sel cc.
Proof.
  intros Hc. set (n := length sup). set (coords := map snd sup). set (cen := nth c sup (0%Z, zeroP)).
  assert (Ec : nth_error sup c = Some cen) by (apply nth_error_nth'; exact Hc).
  unfold key_row. fold coords n. assert (Gc : get coords c = Ok (snd cen)) by (apply get_some; unfold coords; rewrite nth_error_map, Ec; reflexivity).
  rewrite Gc. cbn [bind]. set (ds := distances dist coords (snd cen)).
  assert (Ed : ds = map (fun a => dist (snd a) (snd cen)) sup) by (unfold ds, distances, coords; rewrite map_map; reflexivity).
  assert (Ln : length ds = n) by (rewrite Ed, map_length; reflexivity).
  destruct (Hsort ds) as [Pm So]. rewrite Ln in Pm. set (k := length (filter (fun d => leb d rcut) ds)).
  set (p := fun i => leb (nth i ds zeroD) rcut).
  assert (Bd : forall i, In i (argsort ds) <-> i < n). { intros i. split; [intros Hi; apply (Permutation_in _ Pm), in_seq in Hi; lia|intros Hi; apply (Permutation_in _ (Permutation_sym Pm)), in_seq; lia]. }
  assert (Kp : k = length (filter p (argsort ds))).
  { rewrite (perm_filter_length p _ _ Pm). unfold k. rewrite (list_as_map ds zeroD), filter_map_length, Ln. reflexivity. }
  assert (Sel : firstn k (argsort ds) = filter p (argsort ds)).
  { rewrite Kp. apply (filter_sorted_prefix _ p _ So). intros i j Hi Hj Hij. unfold p. apply (proj2 Hleb).
    apply Hij; apply nth_error_nth'; rewrite Ln; apply Bd; assumption. }
  rewrite Sel. set (sel := filter p (argsort ds)) in *.
  assert (NdA : NoDup (argsort ds)) by (apply (Permutation_NoDup (Permutation_sym Pm)), seq_NoDup).
  assert (Nth : forall j, j < n -> nth_error ds j = Some (nth j ds zeroD)) by (intros j Hj; apply nth_error_nth'; rewrite Ln; exact Hj).
  assert (Val : forall j, j < n -> nth j ds zeroD = dist (snd (nth j sup (0%Z, zeroP))) (snd cen)).
  { intros j Hj. assert (E := Nth j Hj). rewrite Ed in E at 1. rewrite nth_error_map, (nth_error_nth' sup (0%Z, zeroP) Hj) in E. cbn in E. congruence. }
  assert (Ls : lists (within dist leb (snd cen) rcut) sup sel).
  { split; [apply NoDup_filter; exact NdA|]. intros j. unfold sel. rewrite filter_In, Bd. unfold p, within. split.
    - intros [Hj E]. exists (nth j sup (0%Z, zeroP)). split; [apply nth_error_nth'; exact Hj|]. rewrite <- Val by exact Hj. exact E.
    - intros (a & Ha & E). assert (Hj : j < n) by (apply nth_error_Some; congruence). split; [exact Hj|]. rewrite Val by exact Hj. rewrite (nth_error_nth _ _ _ Ha). exact E. }
  assert (Nf : nearest_first dist leb sup (snd cen) sel).
  { unfold nearest_first, sel. apply sorted_filter. apply (sorted_weaken _ _ _ So). intros i j Hi Hj Hij a b Ha Hb. apply Bd in Hi, Hj.
    apply Hij; rewrite Ed, nth_error_map; [rewrite Ha|rewrite Hb]; reflexivity. }
  assert (Bs := lists_bound _ _ _ Ls). assert (Ll := lists_le _ _ _ Ls). fold n in Ll.
  assert (Lk : k = length sel) by exact Kp.
  assert (WP : forall A (z : A) vals, length vals = length sel -> write_prefix z n k vals = Ok (vals ++ repeat z (n - length sel))).
  { intros A z vals E. unfold write_prefix. rewrite E, Lk, Nat.min_l, Nat.eqb_refl by lia. reflexivity. }
  rewrite (mapM_get (map fst sup) 0%Z) by (rewrite map_length; exact Bs). cbn [bind]. rewrite WP by apply map_length. cbn [bind].
  rewrite (mapM_get ds zeroD) by (rewrite Ln; exact Bs). cbn [bind]. rewrite WP by apply map_length. cbn [bind].
  rewrite (mapM_get coords zeroP) by (unfold coords; rewrite map_length; exact Bs). cbn [bind]. rewrite WP by apply map_length. cbn [bind].
  exists sel, (map (fun i => nth i (map fst sup) 0%Z) sel ++ repeat 0%Z (n - length sel)), (map (fun i => nth i ds zeroD) sel ++ repeat zeroD (n - length sel)), (map (fun i => nth i coords zeroP) sel ++ repeat zeroP (n - length sel)), cen.
  rewrite <- Lk. split; [reflexivity|]. split; [exact Ec|]. split; [exact Ls|]. split; [exact Nf|].
  rewrite Forall_forall in Bs. split; [|split].
  - rewrite (map_ext_in _ (fun j => fst (nth j sup (0%Z, zeroP)))) by (intros j _; apply (map_nth fst sup (0%Z, zeroP) j)). rewrite Lk. apply shows_map; [apply Forall_forall; exact Bs|exact Ll].
  - rewrite (map_ext_in _ (fun j => dist (snd (nth j sup (0%Z, zeroP))) (snd cen))) by (intros j Hj; apply Val, Bs; exact Hj). rewrite Lk. apply (shows_map (fun a => dist (snd a) (snd cen))); [apply Forall_forall; exact Bs|exact Ll].
  - rewrite (map_ext_in _ (fun j => snd (nth j sup (0%Z, zeroP)))) by (intros j _; apply (map_nth snd sup (0%Z, zeroP) j)). rewrite Lk. apply shows_map; [apply Forall_forall; exact Bs|exact Ll].
Qed.

Notation shows_row := (shows_row dist zeroP zeroD).
Lemma table_ok sup key rcut : Forall (fun c => c < length sup) key ->
  exists table sels w, key_neighs_info dist leb argsort zeroP zeroD sup key rcut = Ok table /\
    Forall2 (neighbours dist leb sup rcut) key sels /\ widest sels w /\
    length table = length key /\ length sels = length key /\
    forall i c sel row, nth_error key i = Some c -> nth_error sels i = Some sel -> nth_error table i = Some row -> shows_row sup w c sel row.
Proof.
  intros Hk. unfold key_neighs_info.
  destruct (mapM_forall2_exists (key_row dist leb argsort zeroP zeroD sup rcut) (fun c y => exists sel, fst y = length sel /\ neighbours dist leb sup rcut c sel /\ shows_row sup (length sup) c sel (snd y)) key) as (rows & E & F).
  { intros c Ic. rewrite Forall_forall in Hk. destruct (key_row_ok sup rcut c (Hk c Ic)) as (sel & an & d & cc & cen & E & Ec & L & N & S1 & S2 & S3).
    exists (length sel, (an, d, cc)). split; [exact E|]. exists sel. split; [reflexivity|]. split; [exists cen; split; [exact Ec|split; assumption]|]. exists cen. cbn. repeat split; assumption. }
  rewrite E. cbn [bind]. clear E.
  assert (W : exists sels, Forall2 (neighbours dist leb sup rcut) key sels /\ Forall2 (fun y sel => fst y = length sel) rows sels /\ length sels = length key /\
     forall i c sel y, nth_error key i = Some c -> nth_error sels i = Some sel -> nth_error rows i = Some y -> shows_row sup (length sup) c sel (snd y)).
  { clear Hk. induction F as [|c y key rows (sel & H1 & H2 & H3) F IH]; [exists []; split; [constructor|split; [constructor|split; [reflexivity|]]]; intros [|i] ? ? ? H; discriminate|].
    destruct IH as (sels & A1 & A2 & A3 & A4). exists (sel :: sels). split; [constructor; assumption|]. split; [constructor; assumption|]. split; [cbn; lia|].
    intros [|i] c0 s0 y0 K1 K2 K3; cbn in K1, K2, K3; [injection K1 as <-; injection K2 as <-; injection K3 as <-; exact H3|exact (A4 i _ _ _ K1 K2 K3)]. }
  destruct W as (sels & A1 & A2 & A3 & A4). set (w := list_max0 (map fst rows)).
  assert (Em : map fst rows = map (@length nat) sels) by (clear - A2; induction A2 as [|y s r ss H F IH]; [reflexivity|cbn; f_equal; assumption]).
  destruct (list_max0_spec (map fst rows)) as [M1 M2]. fold w in M1, M2. rewrite Em in M1, M2.
  assert (Wd : widest sels w).
  { split; [intros s Hs; apply M1, in_map; exact Hs|]. destruct M2 as [M2|M2]; [left; exact M2|right]. apply in_map_iff in M2. destruct M2 as (s & Es & Is). exists s. split; assumption. }
  exists (map (fun r => let '(an, d, c) := snd r in (firstn w an, firstn w d, firstn w c)) rows), sels, w. split; [reflexivity|]. split; [exact A1|]. split; [exact Wd|].
  assert (Lr := forall2_len _ _ _ F). split; [etransitivity; [apply map_length|symmetry; exact Lr]|]. split; [exact A3|].
  intros i c sel row K1 K2 K3. rewrite nth_error_map in K3. destruct (nth_error rows i) as [y|] eqn:K4; [|discriminate]. cbn in K3. injection K3 as <-.
  destruct (A4 i c sel y K1 K2 K4) as (cen & Ec & S1 & S2 & S3).
  assert (L1 : length sel <= w) by (apply Wd, (nth_error_In _ _ K2)).
  assert (L2 : w <= length sup).
  { destruct (proj2 Wd) as [->|(s & Is & <-)]; [lia|]. apply In_nth_error in Is. destruct Is as (m & Hm). destruct (nth_error key m) as [cm|] eqn:Km.
    - assert (Hn : neighbours dist leb sup rcut cm s). { clear - A1 Hm Km. revert m Hm Km. induction A1 as [|a b k ss H F IH]; intros [|m] Hm Km; cbn in *; try discriminate; [congruence|exact (IH m Hm Km)]. }
      destruct Hn as (cen' & _ & L & _). exact (lists_le _ _ _ L).
    - apply nth_error_None in Km. assert (nth_error sels m <> None) by congruence. apply nth_error_Some in H. lia. }
  destruct y as [k [[an d] cc]]. cbn in *. exists cen. cbn. split; [exact Ec|].
  split; [exact (shows_firstn _ _ _ _ _ _ _ S1 L1 L2)|]. split; [exact (shows_firstn _ _ _ _ _ _ _ S2 L1 L2)|exact (shows_firstn _ _ _ _ _ _ _ S3 L1 L2)].
Qed.

(** The centre comes first when nothing else is as close. *)
Lemma centre_first sup rcut c cen sel : nth_error sup c = Some cen -> leb (dist (snd cen) (snd cen)) rcut = true ->
  (forall j a, j <> c -> nth_error sup j = Some a -> leb (dist (snd a) (snd cen)) (dist (snd cen) (snd cen)) = false) ->
  neighbours dist leb sup rcut c sel -> exists rest, sel = c :: rest.
Proof.
  intros Ec E0 Far (cen' & Ec' & [Nd L] & Nf). assert (cen' = cen) by congruence. subst cen'.
  assert (Ic : In c sel) by (apply L; exists cen; split; [exact Ec|exact E0]).
  destruct sel as [|j rest]; [destruct Ic|]. destruct Ic as [->|Ic]; [exists rest; reflexivity|]. exfalso.
  unfold nearest_first in Nf. inversion Nf as [|x l S F]; subst. rewrite Forall_forall in F. assert (Ij : In j (j :: rest)) by (left; reflexivity). apply L in Ij. destruct Ij as (a & Ha & _).
  specialize (F c Ic a cen Ha Ec). inversion Nd as [|x l Nj _]; subst. assert (j <> c) by (intros ->; contradiction). rewrite (Far j a H Ha) in F. discriminate.
Qed.
End Neigh.
