(** Proofs about the memory of structures: values in memory and the invariant of all variables. *)
From Verif Require Import NestModel NestSpec NestProofs LifeModel LifeSpec LifeProofs.
Local Open Scope nat_scope.
Local Open Scope list_scope.

(** ** Values in memory *)
Definition at1 (l : list Z) (idx : list nat) : option Z := match idx with [i] => nth_error l i | _ => None end.
Definition at2 (m : list (list Z)) (idx : list nat) : option Z :=
  match idx with [i; j] => match nth_error m i with Some r => nth_error r j | None => None end | _ => None end.
Definition rows (n : nat) (m : list (list Z)) : Prop := length m = n /\ Forall (fun r => length r = 3) m.
Definition good (v : value) : Prop :=
  rows 3 (basis v) /\ length (origin v) = 3 /\ 0 < length (coords v) /\ rows (length (coords v)) (coords v) /\
  length (numbers v) = length (coords v).

Lemma within1 n idx : within [n] idx -> exists i, idx = [i] /\ i < n.
Proof. intros H. inversion H as [|i ? r ? Hi Hr]; subst. inversion Hr; subst. eauto. Qed.
Lemma within2 n m idx : within [n; m] idx -> exists i j, idx = [i; j] /\ i < n /\ j < m.
Proof. intros H. inversion H as [|i ? r ? Hi Hr]; subst. apply within1 in Hr. destruct Hr as (j & -> & Hj). eauto. Qed.
Lemma within_1 n i : i < n -> within [n] [i].
Proof. intros; repeat constructor; auto. Qed.
Lemma within_2 n m i j : i < n -> j < m -> within [n; m] [i; j].
Proof. intros; repeat constructor; auto. Qed.
Lemma rows_row n m i : rows n m -> i < n -> exists r, nth_error m i = Some r /\ length r = 3.
Proof.
  intros [L F] Hi. destruct (nth_error m i) as [r|] eqn:E; [|apply nth_error_None in E; lia].
  exists r. split; auto. rewrite Forall_forall in F. apply F. eapply nth_error_In; eauto.
Qed.
Lemma at2_some n m i j : rows n m -> i < n -> j < 3 -> exists z, at2 m [i; j] = Some z.
Proof.
  intros Hr Hi Hj. destruct (rows_row n m i Hr Hi) as (r & E & L). cbn [at2]. rewrite E.
  destruct (nth_error r j) as [z|] eqn:Ej; [eauto|apply nth_error_None in Ej; lia].
Qed.
Lemma at1_some n l i : length l = n -> i < n -> exists z, at1 l [i] = Some z.
Proof. intros Hl Hi. cbn. destruct (nth_error l i) as [z|] eqn:E; [eauto|apply nth_error_None in E; lia]. Qed.

Lemma arrays_ext h o own fb fo fn fc gb go gn gc : arrays h o own fb fo fn fc ->
  (forall i, within [3; 3] i -> fb i = gb i) -> (forall i, within [3] i -> fo i = go i) ->
  (forall i, within [o_n o] i -> fn i = gn i) -> (forall i, within [o_n o; 3] i -> fc i = gc i) -> arrays h o own gb go gn gc.
Proof.
  intros (b & p & a & c & o1 & o2 & o3 & o4 & Eb & Ep & Ea & Ec & Eo & Hd & T1 & T2 & T3 & T4) Hb Ho Ha Hc.
  exists b, p, a, c, o1, o2, o3, o4. repeat (split; [assumption|]).
  split; [eapply tree_ext; eauto|]. split; [eapply tree_ext; eauto|]. split; eapply tree_ext; eauto.
Qed.
Lemma arrays_frame h h' o own fb fo fn fc : arrays h o own fb fo fn fc -> agree (fun x => In x own) h h' -> arrays h' o own fb fo fn fc.
Proof.
  intros (b & p & a & c & o1 & o2 & o3 & o4 & Eb & Ep & Ea & Ec & Eo & Hd & T1 & T2 & T3 & T4) A.
  exists b, p, a, c, o1, o2, o3, o4. repeat (split; [assumption|]). subst own.
  split; [|split; [|split]].
  - eapply tree_frame; [|exact T1]. intros x Hx; apply A; rewrite !in_app_iff; tauto.
  - eapply tree_frame; [|exact T2]. intros x Hx; apply A; rewrite !in_app_iff; tauto.
  - eapply tree_frame; [|exact T3]. intros x Hx; apply A; rewrite !in_app_iff; tauto.
  - eapply tree_frame; [|exact T4]. intros x Hx; apply A; rewrite !in_app_iff; tauto.
Qed.
Lemma arrays_alive h o own fb fo fn fc x : arrays h o own fb fo fn fc -> In x own -> alive h x.
Proof.
  intros (b & p & a & c & o1 & o2 & o3 & o4 & Eb & Ep & Ea & Ec & -> & Hd & T1 & T2 & T3 & T4) Hx. rewrite !in_app_iff in Hx.
  destruct Hx as [Hx|[Hx|[Hx|Hx]]];
    [exact (tree_alive _ _ _ _ _ _ T1 Hx)|exact (tree_alive _ _ _ _ _ _ T2 Hx)|exact (tree_alive _ _ _ _ _ _ T3 Hx)|exact (tree_alive _ _ _ _ _ _ T4 Hx)].
Qed.

(** What a variable holds and which blocks belong to it. *)
Definition dead (h : heap) (p : option nat) : Prop := match p with None => True | Some b => nth_error h b = Some None end.
Definition slot (h : heap) (o : option obj) (v : option held) (own : list nat) : Prop :=
  match o, v with
  | None, None => own = []
  | Some o, Some Empty => own = [] /\ o_n o = 0 /\ dead h (o_numbers o)
  | Some o, Some (Unset n) => 0 < n /\ o_n o = n /\ arrays h o own (fun _ => None) (fun _ => None) (fun _ => None) (fun _ => None)
  | Some o, Some (Full v) => good v /\ o_n o = length (coords v) /\
      arrays h o own (at2 (basis v)) (at1 (origin v)) (at1 (numbers v)) (at2 (coords v))
  | _, _ => False
  end.
Lemma slot_alive h o v own x : slot h o v own -> In x own -> alive h x.
Proof.
  destruct o as [o|], v as [[|n|v]|]; cbn [slot]; try easy.
  - intros [-> _] [].
  - intros (_ & _ & A). eapply arrays_alive; eauto.
  - intros (_ & _ & A). eapply arrays_alive; eauto.
  - intros -> [].
Qed.
Lemma slot_NoDup h o v own : slot h o v own -> NoDup own.
Proof.
  destruct o as [o|], v as [[|n|v]|]; cbn [slot]; try easy.
  - intros [-> _]; constructor.
  - intros (_ & _ & b & p & a & c & o1 & o2 & o3 & o4 & H); tauto.
  - intros (_ & _ & b & p & a & c & o1 & o2 & o3 & o4 & H); tauto.
  - intros ->; constructor.
Qed.
Lemma alive_lt h x : alive h x -> x < length h.
Proof. intros [c H]. apply nth_error_Some. congruence. Qed.

(** One variable's blocks [old] are given up for [new]; all else stays. *)
Definition changes (h h' : heap) (old new : list nat) : Prop :=
  length h <= length h' /\ (forall x, x < length h -> ~ In x old -> nth_error h' x = nth_error h x) /\
  (forall x, In x old -> ~ In x new -> nth_error h' x = Some None) /\
  (forall x, length h <= x < length h' -> ~ In x new -> nth_error h' x = Some None) /\
  (forall x, In x new -> In x old \/ length h <= x).
Lemma slot_frame h h' old new o v own : changes h h' old new -> (forall x, In x old -> alive h x) ->
  (forall x, In x own -> ~ In x old) -> slot h o v own -> slot h' o v own.
Proof.
  intros (L & A & _) Ho D Sl. assert (agree (fun x => In x own) h h') as Ag.
  { intros x Hx. apply A; auto. apply alive_lt. eapply slot_alive; eauto. }
  destruct o as [o|], v as [[|n|v]|]; cbn [slot] in *; try easy.
  - destruct Sl as (-> & En & Dd). repeat split; auto. unfold dead in *. destruct (o_numbers o) as [b|]; auto.
    rewrite A; auto; [apply nth_error_Some; congruence|]. intros Hb. destruct (Ho b Hb) as [c Hc]. congruence.
  - destruct Sl as (Hn & En & Ar). repeat split; auto. eapply arrays_frame; eauto.
  - destruct Sl as (Hn & En & Ar). repeat split; auto; try apply Hn. eapply arrays_frame; eauto.
Qed.

(** ** The invariant *)
Record inv (vs : values) (s : store_t) (own : nat -> list nat) : Prop := {
  inv_len : length (fst s) = length vs;
  inv_slot : forall x, x < length vs -> exists o v, nth_error (fst s) x = Some o /\ nth_error vs x = Some v /\ slot (snd s) o v (own x);
  inv_apart : forall x y b, x < length vs -> y < length vs -> x <> y -> In b (own x) -> ~ In b (own y);
  inv_all : forall b, alive (snd s) b -> exists x, x < length vs /\ In b (own x) }.

Lemma inv_start n : inv (repeat None n) (start n) (fun _ => []).
Proof.
  constructor; cbn [start fst snd].
  - now rewrite !repeat_length.
  - intros x Hx. rewrite repeat_length in Hx. exists None, None.
    assert (forall A, nth_error (repeat (@None A) n) x = Some None) as H.
    { intros A. rewrite (nth_error_nth' _ None) by (rewrite repeat_length; auto). f_equal. apply nth_repeat. }
    repeat split; auto.
  - intros x y b _ _ _ [].
  - intros b [c H]. destruct b; discriminate.
Qed.
Lemma inv_update vs st h own x o' v' h' new : inv vs (st, h) own -> x < length vs -> changes h h' (own x) new ->
  slot h' o' v' new -> inv (replace vs x v') (replace st x o', h') (fun y => if y =? x then new else own y).
Proof.
  intros I Hx C Sl. destruct I as [Il Is Ia Iall]. cbn [fst snd] in *. constructor; cbn [fst snd].
  - now rewrite !replace_length.
  - rewrite replace_length. intros y Hy. destruct (Nat.eqb_spec y x) as [->|Hne].
    + exists o', v'. rewrite !nth_replace_same by lia. auto.
    + destruct (Is y Hy) as (o & v & E1 & E2 & Sy). exists o, v. rewrite !nth_replace_other by lia. repeat split; auto.
      destruct (Is x Hx) as (ox & vx & _ & _ & Sx).
      eapply slot_frame; [exact C| |intros b Hb; apply (Ia y x b); auto|exact Sy]. intros b Hb. eapply slot_alive; eauto.
  - rewrite replace_length. intros y z b Hy Hz Hne Hb.
    destruct C as (L & A & _ & _ & N).
    assert (forall w c, w < length vs -> In c (own w) -> c < length h) as Hlt.
    { intros w c Hw Hc. destruct (Is w Hw) as (o & v & _ & _ & Sw). apply alive_lt. eapply slot_alive; eauto. }
    destruct (Nat.eqb_spec y x) as [->|Hy']; destruct (Nat.eqb_spec z x) as [->|Hz']; try lia.
    + intros Hc. destruct (N b Hb) as [H|H]; [apply (Ia x z b); auto|specialize (Hlt z b Hz Hc); lia].
    + intros Hc. destruct (N b Hc) as [H|H]; [apply (Ia x y b); auto|specialize (Hlt y b Hy Hb); lia].
    + apply (Ia y z b); auto.
  - rewrite replace_length. intros b Hal. destruct C as (L & A & F & G & N).
    destruct (in_dec Nat.eq_dec b new) as [Hn|Hn].
    + exists x. rewrite Nat.eqb_refl. auto.
    + destruct (Nat.lt_ge_cases b (length h)) as [Hb|Hb].
      * destruct (in_dec Nat.eq_dec b (own x)) as [Ho|Ho].
        -- specialize (F b Ho Hn). destruct Hal as [c Hc]. congruence.
        -- destruct Hal as [c Hc]. rewrite A in Hc by auto. destruct (Iall b) as (y & Hy & Hi); [eexists; eauto|].
           exists y. split; auto. destruct (Nat.eqb_spec y x) as [->|_]; [contradiction|auto].
      * pose proof (alive_lt _ _ Hal). destruct Hal as [c Hc]. rewrite (G b) in Hc by auto. congruence.
Qed.

(** ** Constructions *)
Definition got (f : list nat -> option Z) (idx : list nat) : hres Z := match f idx with Some z => HOk z | None => HErr Uninitialised end.
Lemma outcome_read h dims b own f : tree h dims b own f -> outcome dims (fun h idx => read_at h b idx) h (got f).
Proof. intros T idx h1 Hx L A. apply (read_spec dims h1 b own f idx); auto. eapply tree_later; eauto. Qed.
Lemma outcome_const dims h R : outcome dims (fun _ => R) h R.
Proof. intros idx h1 _ _ _. reflexivity. Qed.

Lemma fresh_changes h h' n : length h' = length h + n -> agree (fun x => x < length h) h h' -> changes h h' [] (seq (length h) n).
Proof.
  intros L A. repeat split.
  - lia.
  - intros x Hx _. now apply A.
  - intros x [].
  - intros x Hx Hn. rewrite in_seq in Hn. lia.
  - intros x Hx. apply in_seq in Hx. right; lia.
Qed.

Lemma nth_firstn_lt {A} (l : list A) n i : i < n -> nth_error (firstn n l) i = nth_error l i.
Proof. revert n i; induction l as [|x l IH]; intros [|n] [|i] H; cbn; auto; try lia. apply IH; lia. Qed.
Lemma table_ok n l i j : table n l = true -> i < n -> j < 3 ->
  exists z, arg2 l [i; j] = HOk z /\ at2 (map (firstn 3) (firstn n l)) [i; j] = Some z.
Proof.
  unfold table. intros H Hi Hj. apply andb_true_iff in H. destruct H as [H1 H2]. apply Nat.leb_le in H1.
  rewrite forallb_forall in H2. cbn [arg2 arg1 at2]. rewrite nth_error_map, nth_firstn_lt by auto.
  destruct (nth_error l i) as [r|] eqn:E; [|apply nth_error_None in E; lia]. cbn [option_map].
  assert (3 <= length r) as Hr.
  { apply Nat.leb_le, H2. apply (nth_error_In _ i). now rewrite nth_firstn_lt. }
  rewrite nth_firstn_lt by auto. destruct (nth_error r j) as [z|] eqn:Ej; [eauto|apply nth_error_None in Ej; lia].
Qed.
Lemma table_bad n l : table n l = false -> exists i j e, i < n /\ j < 3 /\ arg2 l [i; j] = HErr e.
Proof.
  unfold table. intros H. apply andb_false_iff in H. destruct H as [H|H].
  - apply Nat.leb_gt in H. exists (length l), 0, OutOfBounds. repeat split; try lia. cbn [arg2].
    now rewrite (proj2 (nth_error_None l (length l))).
  - assert (exists r, In r (firstn n l) /\ length r < 3) as (r & Hr & Hl).
    { revert H. generalize (firstn n l). intros m. induction m as [|r m IH]; cbn [forallb]; [discriminate|].
      intros H. apply andb_false_iff in H. destruct H as [H|H]; [exists r; split; [now left|now apply Nat.leb_gt in H]|].
      destruct (IH H) as (r' & Hi & Hl). exists r'. split; [now right|auto]. }
    destruct (In_nth_error _ _ Hr) as [i Hi]. assert (i < length (firstn n l)) as Hlt by (apply nth_error_Some; congruence).
    rewrite firstn_length in Hlt. exists i, (length r), OutOfBounds. repeat split; try lia. cbn [arg2 arg1].
    rewrite nth_firstn_lt in Hi by lia. rewrite Hi. now rewrite (proj2 (nth_error_None r (length r))).
Qed.
Lemma table_rows n l : table n l = true -> rows n (map (firstn 3) (firstn n l)).
Proof.
  unfold table. intros H. apply andb_true_iff in H. destruct H as [H1 H2]. apply Nat.leb_le in H1. split.
  - rewrite map_length, firstn_length. lia.
  - apply Forall_forall. intros r Hr. apply in_map_iff in Hr. destruct Hr as (q & <- & Hq).
    rewrite forallb_forall in H2. specialize (H2 q Hq). apply Nat.leb_le in H2. rewrite firstn_length. lia.
Qed.
Lemma rows3 m : rows 3 m -> exists a b c d e f g h i, m = [[a; b; c]; [d; e; f]; [g; h; i]].
Proof.
  intros [L F]. destruct m as [|r0 [|r1 [|r2 [|]]]]; try discriminate.
  inversion F as [|? ? L0 F1]; subst. inversion F1 as [|? ? L1 F2]; subst. inversion F2 as [|? ? L2 _]; subst.
  destruct r0 as [|a [|b [|c [|]]]]; try discriminate. destruct r1 as [|d [|e [|f [|]]]]; try discriminate.
  destruct r2 as [|g [|h [|i [|]]]]; try discriminate. do 9 eexists. reflexivity.
Qed.
Lemma three {A} (l : list A) : length l = 3 -> exists a b c, l = [a; b; c].
Proof. destruct l as [|a [|b [|c [|]]]]; try discriminate. intros _. eauto. Qed.
(** Components of a combination of three rows. *)
Lemma vcomb_length c m : rows 3 m -> length c = 3 -> length (vcomb c m) = 3.
Proof.
  intros Hm Hc. destruct (rows3 m Hm) as (a & b & c0 & d & e & f & g & h & i & ->). destruct (three c Hc) as (x & y & z & ->). reflexivity.
Qed.
Lemma vcomb_at x y z m j p q r : rows 3 m -> j < 3 -> at2 m [0; j] = Some p -> at2 m [1; j] = Some q -> at2 m [2; j] = Some r ->
  nth_error (vcomb [x; y; z] m) j = Some (x * p + y * q + z * r)%Z.
Proof.
  intros Hm Hj. destruct (rows3 m Hm) as (a & b & c & d & e & f & g & h & i & ->).
  destruct j as [|[|[|]]]; try lia; cbn [at2 nth_error]; intros E1 E2 E3; injection E1 as <-; injection E2 as <-; injection E3 as <-;
    cbn; f_equal; ring.
Qed.
