(** Lemmas about the slot layout. *)
From Verif Require Import SlotModel SlotSpec.
Open Scope nat_scope.
Local Arguments list_sum : simpl never.

Lemma lsum_cons x l : list_sum (x :: l) = x + list_sum l.
Proof. reflexivity. Qed.
Lemma lsum_nil : list_sum [] = 0.
Proof. reflexivity. Qed.

Lemma fold_add l : forall a, fold_left Nat.add l a = a + list_sum l.
Proof. induction l as [|x l IH]; intros a; cbn; [rewrite lsum_nil; lia|]. rewrite IH, lsum_cons. lia. Qed.
Lemma width_sum umax : width umax = reserved umax.
Proof. unfold width, reserved. rewrite fold_add. lia. Qed.

Lemma sum_firstn_S l t : t < length l -> list_sum (firstn (S t) l) = list_sum (firstn t l) + nth t l 0.
Proof.
  revert t. induction l as [|x l IH]; intros t H; [cbn in H; lia|]. destruct t as [|t].
  - cbn. rewrite lsum_cons, lsum_nil. lia.
  - change (firstn (S (S t)) (x :: l)) with (x :: firstn (S t) l). change (firstn (S t) (x :: l)) with (x :: firstn t l).
    cbn [nth]. rewrite !lsum_cons, IH by (cbn in H; lia). lia.
Qed.
Lemma sum_firstn_le l t t' : t <= t' -> list_sum (firstn t l) <= list_sum (firstn t' l).
Proof.
  intros H. induction H as [|t' H IH]; [lia|]. destruct (Nat.lt_ge_cases t' (length l)) as [L|G].
  - rewrite sum_firstn_S by exact L. lia.
  - rewrite (firstn_all2 (n:=S t')) by lia. rewrite (firstn_all2 (n:=t')) in IH by lia. exact IH.
Qed.
Lemma sum_block l t p : t < length l -> p < nth t l 0 -> list_sum (firstn t l) + p < list_sum l.
Proof.
  intros H P. assert (E := sum_firstn_S l t H). assert (L := sum_firstn_le l (S t) (length l) ltac:(lia)).
  rewrite firstn_all in L. lia.
Qed.
Lemma sum_block_inj l t p t' p' : t < length l -> p < nth t l 0 -> t' < length l -> p' < nth t' l 0 ->
  list_sum (firstn t l) + p = list_sum (firstn t' l) + p' -> t = t' /\ p = p'.
Proof.
  intros H P H' P' E. destruct (Nat.lt_trichotomy t t') as [L|[->|L]].
  - assert (A := sum_firstn_S l t H). assert (B := sum_firstn_le l (S t) t' ltac:(lia)). lia.
  - split; [reflexivity|lia].
  - assert (A := sum_firstn_S l t' H'). assert (B := sum_firstn_le l (S t') t ltac:(lia)). lia.
Qed.
Lemma sum_block_ex l : forall q, q < list_sum l -> exists t p, t < length l /\ p < nth t l 0 /\ list_sum (firstn t l) + p = q.
Proof.
  induction l as [|x l IH]; intros q H; [rewrite lsum_nil in H; lia|]. rewrite lsum_cons in H.
  destruct (Nat.lt_ge_cases q x) as [L|G].
  - exists 0, q. cbn. rewrite lsum_nil. repeat split; lia.
  - destruct (IH (q - x) ltac:(lia)) as (t & p & A & B & C). exists (S t), p. cbn [length nth firstn].
    rewrite lsum_cons. repeat split; [lia|exact B|lia].
Qed.

Lemma starts_fold umax t : t <= length umax -> fold_left (fun acc jj => acc + nth jj umax 0) (seq 0 t) 0 = list_sum (firstn t umax).
Proof.
  induction t as [|t IH]; intros H; [reflexivity|]. rewrite seq_S, fold_left_app, IH by lia. cbn [fold_left].
  rewrite sum_firstn_S by lia. cbn. lia.
Qed.
Lemma starts_get umax t : t < length umax -> get (starts umax) t = Ok (list_sum (firstn t umax)).
Proof.
  intros H. unfold starts. apply get_some. rewrite nth_error_map, nth_error_nth' with (d := 0) by (rewrite seq_length; exact H).
  rewrite seq_nth by exact H. cbn [option_map Nat.add]. rewrite starts_fold by lia. reflexivity.
Qed.

(** *** Slots are in bijection with (centre, type, position). *)
Lemma slot_bound umax inum i t p : i < inum -> t < length umax -> p < nth t umax 0 -> slot_of umax i t p < inum * reserved umax.
Proof. intros I T P. unfold slot_of. assert (B := sum_block umax t p T P). fold (reserved umax) in B. nia. Qed.
Lemma slot_inj umax i t p i' t' p' : t < length umax -> p < nth t umax 0 -> t' < length umax -> p' < nth t' umax 0 ->
  slot_of umax i t p = slot_of umax i' t' p' -> i = i' /\ t = t' /\ p = p'.
Proof.
  intros T P T' P' E. unfold slot_of in E. assert (B := sum_block umax t p T P). assert (B' := sum_block umax t' p' T' P').
  fold (reserved umax) in B, B'.
  assert (i = i') by nia. subst i'. split; [reflexivity|]. apply (sum_block_inj umax); [assumption..|lia].
Qed.
Lemma slot_ex umax inum q : q < inum * reserved umax -> exists i t p, i < inum /\ t < length umax /\ p < nth t umax 0 /\ slot_of umax i t p = q.
Proof.
  intros H. assert (W : 0 < reserved umax) by (destruct (reserved umax); lia).
  destruct (sum_block_ex umax (q mod reserved umax)) as (t & p & A & B & C); [apply Nat.mod_upper_bound; fold (reserved umax); lia|].
  exists (q / reserved umax), t, p. split; [apply Nat.div_lt_upper_bound; nia|]. split; [exact A|]. split; [exact B|].
  unfold slot_of. assert (D := Nat.div_mod_eq q (reserved umax)). nia.
Qed.
Lemma slot_unique umax inum q : q < inum * reserved umax ->
  exists i t p, (i < inum /\ t < length umax /\ p < nth t umax 0 /\ slot_of umax i t p = q) /\
  forall i' t' p', t' < length umax -> p' < nth t' umax 0 -> slot_of umax i' t' p' = q -> i' = i /\ t' = t /\ p' = p.
Proof.
  intros H. destruct (slot_ex umax inum q H) as (i & t & p & A & B & C & D). exists i, t, p. split; [repeat split; assumption|].
  intros i' t' p' T P E. apply (slot_inj umax); try assumption. congruence.
Qed.

(** *** Group writes *)
Section Groups.
Context {V : Type}.
Variable g : nat.
Hypothesis Hg : 0 < g.

Lemma group_nth (a : list V) q k : k < g -> nth_error (group g q a) k = nth_error a (q * g + k).
Proof using Hg.
  intros H. unfold group. assert (forall (l : list V) n k, k < n -> nth_error (firstn n l) k = nth_error l k) as F.
  { intros l n. revert l. induction n as [|n IH]; intros l m Hm; [lia|]. destruct l; [destruct m; reflexivity|]. destruct m; [reflexivity|]. cbn. apply IH. lia. }
  rewrite F by exact H. generalize (q * g). intros s. revert a. induction s as [|s IH]; intros a; [reflexivity|].
  destruct a; [destruct k; reflexivity|]. cbn. apply IH.
Qed.
Lemma group_len (a : list V) q n : length a = n * g -> q < n -> length (group g q a) = g.
Proof using Hg. intros L Q. unfold group. rewrite firstn_length, skipn_length, L. nia. Qed.
Lemma group_ext (a b : list V) q n : length a = n * g -> length b = g -> q < n ->
  (forall k, k < g -> nth_error a (q * g + k) = nth_error b k) -> group g q a = b.
Proof using Hg.
  intros L Lb Q H. apply nth_error_ext; [rewrite (group_len a q n L Q); congruence|].
  intros k K. rewrite (group_len a q n L Q) in K. rewrite group_nth by exact K. apply H, K.
Qed.

Definition wr (a : list V) (w : nat * list V) : result (list V) := write_group a (fst w * g) (snd w).

Lemma wr_bad a n w : length a = n * g -> length (snd w) = g -> n <= fst w -> wr a w = Err IndexError.
Proof using Hg. intros L Lw H. apply write_group_bad; [intros E; rewrite E in Lw; cbn in Lw; lia|]. nia. Qed.
Lemma wr_ok a n w : length a = n * g -> length (snd w) = g -> fst w < n ->
  exists a', wr a w = Ok a' /\ length a' = n * g /\
  forall q, q < n -> group g q a' = if q =? fst w then snd w else group g q a.
Proof using Hg.
  intros L Lw H. destruct (write_group_ok (snd w) a (fst w * g) ltac:(nia)) as (a' & E & La & N).
  exists a'. split; [exact E|]. split; [congruence|]. intros q Q. destruct (Nat.eqb_spec q (fst w)) as [->|D].
  - apply (group_ext _ _ _ n); [congruence|exact Lw|exact Q|]. intros k K. rewrite N.
    destruct (Nat.leb_spec (fst w * g) (fst w * g + k)); [|lia]. destruct (Nat.ltb_spec (fst w * g + k) (fst w * g + length (snd w))); [|lia].
    cbn [andb]. f_equal. lia.
  - apply (group_ext _ _ _ n); [congruence|apply (group_len a q n L Q)|exact Q|]. intros k K. rewrite N, group_nth by exact K.
    destruct (Nat.leb_spec (fst w * g) (q * g + k)) as [A|A]; [|reflexivity].
    destruct (Nat.ltb_spec (q * g + k) (fst w * g + length (snd w))) as [B|B]; [|reflexivity].
    exfalso. apply D. nia.
Qed.

(** What the last writer of slot [q] left. *)
Definition left_by (q : nat) (ws : list (nat * list V)) (d : list V) : list V :=
  fold_left (fun acc w => if q =? fst w then snd w else acc) ws d.

Lemma writes_ok n ws : forall a, length a = n * g -> Forall (fun w => fst w < n /\ length (snd w) = g) ws ->
  exists a', foldM wr ws a = Ok a' /\ length a' = n * g /\ forall q, q < n -> group g q a' = left_by q ws (group g q a).
Proof using Hg.
  induction ws as [|w ws IH]; intros a L F; [exists a; repeat split; assumption|].
  inversion F as [|? ? [A B] F']; subst. destruct (wr_ok a n w L B A) as (a1 & E & L1 & N1). cbn. rewrite E. cbn.
  destruct (IH a1 L1 F') as (a2 & E2 & L2 & N2). exists a2. split; [exact E2|]. split; [exact L2|]. intros q Q.
  rewrite N2 by exact Q. rewrite N1 by exact Q. reflexivity.
Qed.
Lemma writes_bad n ws : forall a, length a = n * g -> Forall (fun w => length (snd w) = g) ws -> Exists (fun w => n <= fst w) ws ->
  foldM wr ws a = Err IndexError.
Proof using Hg.
  induction ws as [|w ws IH]; intros a L F X; [inversion X|]. inversion F as [|? ? B F']; subst. cbn.
  destruct (Nat.lt_ge_cases (fst w) n) as [H|H].
  - destruct (wr_ok a n w L B H) as (a1 & E & L1 & N1). rewrite E. cbn. apply IH; [exact L1|exact F'|].
    inversion X; subst; [lia|assumption].
  - rewrite (wr_bad a n w L B H). reflexivity.
Qed.

Lemma left_by_cases q ws d :
  (exists l1 w l2, ws = l1 ++ w :: l2 /\ fst w = q /\ left_by q ws d = snd w /\ Forall (fun w' => fst w' <> q) l2) \/
  (Forall (fun w' => fst w' <> q) ws /\ left_by q ws d = d).
Proof using.
  revert d. induction ws as [|w ws IH] using rev_ind; intros d; [right; split; [constructor|reflexivity]|].
  unfold left_by. rewrite fold_left_app. cbn. destruct (Nat.eqb_spec q (fst w)) as [->|N].
  - left. exists ws, w, []. repeat split; constructor.
  - destruct (IH d) as [(l1 & w0 & l2 & -> & A & B & C)|[A B]].
    + left. exists l1, w0, (l2 ++ [w]). split; [rewrite <- app_assoc; reflexivity|]. split; [exact A|]. split; [exact B|].
      apply Forall_app. split; [exact C|]. repeat constructor. congruence.
    + right. split; [|exact B]. apply Forall_app. split; [exact A|]. repeat constructor. congruence.
Qed.
End Groups.

(** *** The loops perform exactly the listed writes *)
Section Loops.
Context {V : Type}.
Variables (zero : V) (g : nat) (payload : nat -> nat -> nat -> result (list V)).
Variables (inum : nat) (numneigh firstneigh types umax : list nat).
Variable vals : nat -> nat -> list V.
Hypothesis Hg : 0 < g.
Hypothesis Hok : table_ok inum numneigh firstneigh types umax.
Hypothesis Hpay : forall i j, i < inum -> j < nth i numneigh 0 ->
  payload i j (neighbour (reserved umax) firstneigh i j) = Ok (vals i j) /\ length (vals i j) = g.

Local Notation T := (neighbour_type (reserved umax) firstneigh types).
Local Notation rk := (rank (reserved umax) firstneigh types).
Local Notation N i := (nth i numneigh 0).

Definition place (i j : nat) : nat := slot_of umax i (T i j) (rk i j).
Definition counts (i s : nat) : list nat := map (fun t => length (filter (fun j => T i j =? t) (seq 0 s))) (seq 0 (length umax)).

Lemma counts_0 i : counts i 0 = repeat 0 (length umax).
Proof. unfold counts. cbn. generalize 0 at 2. induction (length umax) as [|n IH]; intros k; [reflexivity|]. cbn. f_equal. apply IH. Qed.
Lemma counts_get i s t : t < length umax -> get (counts i s) t = Ok (length (filter (fun j => T i j =? t) (seq 0 s))).
Proof.
  intros H. unfold counts. apply get_some. rewrite nth_error_map, nth_error_nth' with (d := 0) by (rewrite seq_length; exact H).
  rewrite seq_nth by exact H. reflexivity.
Qed.
Lemma counts_step i s : T i s < length umax -> set (counts i s) (T i s) (rk i s + 1) = Ok (counts i (S s)).
Proof.
  intros H. assert (L : forall s, length (counts i s) = length umax) by (intros; unfold counts; rewrite map_length, seq_length; reflexivity).
  destruct (set_ok (counts i s) (T i s) (rk i s + 1)) as (l' & E & L' & Nl); [rewrite L; exact H|].
  rewrite E. f_equal. apply nth_error_ext; [rewrite L', !L; reflexivity|]. intros k K. rewrite Nl.
  rewrite L', L in K. assert (G : forall s', nth_error (counts i s') k = Some (length (filter (fun j => T i j =? k) (seq 0 s')))).
  { intros s'. apply get_inv. apply counts_get. exact K. }
  rewrite !G. rewrite seq_S, filter_app, app_length. cbn [filter Nat.add]. destruct (Nat.eqb_spec k (T i s)) as [->|D].
  - rewrite Nat.eqb_refl. unfold rank. cbn. reflexivity.
  - destruct (Nat.eqb_spec (T i s) k); [congruence|]. cbn. f_equal. lia.
Qed.

Lemma inner_loop i n : i < inum -> forall s a, s + n <= N i ->
  foldM (neigh_step g payload firstneigh types umax i) (seq s n) (a, counts i s) =
  bind (foldM (wr g) (map (fun j => (place i j, vals i j)) (seq s n)) a) (fun a' => Ok (a', counts i (s + n))).
Proof using Hg Hok Hpay.
  intros Hi. induction n as [|n IH]; intros s a Hs; [cbn; rewrite Nat.add_0_r; reflexivity|].
  cbn [seq foldM map]. destruct Hok as [_ Ht]. destruct (Ht i s Hi ltac:(lia)) as (A & B & C).
  destruct (Hpay i s Hi ltac:(lia)) as [P _].
  assert (E : neigh_step g payload firstneigh types umax i (a, counts i s) s =
              bind (wr g a (place i s, vals i s)) (fun a' => Ok (a', counts i (S s)))).
  { unfold neigh_step. rewrite width_sum. rewrite (get_ok firstneigh _ 0 A). cbn [bind].
    change (nth (i * reserved umax + s) firstneigh 0) with (neighbour (reserved umax) firstneigh i s).
    rewrite (get_ok types _ 0 B). cbn [bind]. change (nth (neighbour (reserved umax) firstneigh i s) types 0) with (T i s).
    rewrite (starts_get umax _ C). cbn [bind]. rewrite (counts_get i s _ C). cbn [bind].
    change (length (filter (fun j => T i j =? T i s) (seq 0 s))) with (rk i s). rewrite P. cbn [bind].
    unfold wr. cbn [fst snd]. unfold place, slot_of.
    replace (i * reserved umax * g + (list_sum (firstn (T i s) umax) + rk i s) * g) with ((i * reserved umax + list_sum (firstn (T i s) umax) + rk i s) * g) by ring.
    destruct (write_group a _ (vals i s)); [|reflexivity]. cbn [bind]. rewrite counts_step by exact C. reflexivity. }
  rewrite E. destruct (wr g a (place i s, vals i s)) as [a'|e]; [|reflexivity]. cbn [bind].
  rewrite IH by lia. replace (S s + n) with (s + S n) by lia. reflexivity.
Qed.

Definition all_writes : list (nat * list V) :=
  flat_map (fun i => map (fun j => (place i j, vals i j)) (seq 0 (N i))) (seq 0 inum).

Lemma outer_loop n : forall s a, s + n <= inum ->
  foldM (centre_step g payload numneigh firstneigh types umax) (seq s n) a =
  foldM (wr g) (flat_map (fun i => map (fun j => (place i j, vals i j)) (seq 0 (N i))) (seq s n)) a.
Proof using Hg Hok Hpay.
  induction n as [|n IH]; intros s a Hs; [reflexivity|]. cbn [seq foldM flat_map]. rewrite foldM_app.
  assert (E : centre_step g payload numneigh firstneigh types umax a s = foldM (wr g) (map (fun j => (place s j, vals s j)) (seq 0 (N s))) a).
  { unfold centre_step. destruct Hok as [Hn _]. rewrite (get_ok numneigh s 0) by lia. cbn [bind].
    rewrite <- (counts_0 s). rewrite inner_loop by lia. destruct (foldM (wr g) _ a); reflexivity. }
  rewrite E. destruct (foldM (wr g) _ a); [cbn; apply IH; lia|reflexivity].
Qed.

Lemma fill_writes : fill zero g payload inum numneigh firstneigh types umax =
  foldM (wr g) all_writes (repeat zero (inum * reserved umax * g)).
Proof using Hg Hok Hpay. unfold fill. rewrite width_sum. apply outer_loop. lia. Qed.

Lemma writes_in w : In w all_writes <-> exists i j, i < inum /\ j < N i /\ w = (place i j, vals i j).
Proof.
  unfold all_writes. rewrite in_flat_map. split.
  - intros (i & A & B). apply in_map_iff in B. destruct B as (j & E & C). apply in_seq in A, C. exists i, j. repeat split; [lia|lia|congruence].
  - intros (i & j & A & B & E). exists i. split; [apply in_seq; lia|]. apply in_map_iff. exists j. split; [congruence|apply in_seq; lia].
Qed.

(** Positions in the list of writes follow the reading order. *)
Lemma split_seq l1 x l2 s n : seq s n = l1 ++ x :: l2 -> x < s + n /\ s <= x /\ forall y, In y l2 <-> x < y < s + n.
Proof.
  revert s n. induction l1 as [|z l1 IH]; intros s n E.
  - destruct n as [|n]; [discriminate|]. cbn in E. injection E as <- <-. split; [lia|]. split; [lia|]. intros y. rewrite in_seq. lia.
  - destruct n as [|n]; [discriminate|]. cbn in E. injection E as <- E. destruct (IH _ _ E) as (A & B & C). split; [lia|]. split; [lia|].
    intros y. rewrite C. lia.
Qed.
Lemma map_split {A B} (f : A -> B) l l1 y l2 : map f l = l1 ++ y :: l2 -> exists m1 x m2, l = m1 ++ x :: m2 /\ l1 = map f m1 /\ y = f x /\ l2 = map f m2.
Proof.
  revert l1. induction l as [|a l IH]; intros l1 E; [destruct l1; discriminate|]. destruct l1 as [|z l1].
  - cbn in E. injection E as <- <-. exists [], a, l. repeat split.
  - cbn in E. injection E as <- E. destruct (IH l1 E) as (m1 & x & m2 & -> & -> & -> & ->). exists (a :: m1), x, m2. repeat split.
Qed.

Definition pairs : list (nat * nat) := flat_map (fun i => map (pair i) (seq 0 (N i))) (seq 0 inum).
Lemma all_writes_pairs : all_writes = map (fun ij => (place (fst ij) (snd ij), vals (fst ij) (snd ij))) pairs.
Proof.
  unfold all_writes, pairs. induction (seq 0 inum) as [|i l IH]; [reflexivity|]. cbn. rewrite map_app, map_map, IH. reflexivity.
Qed.
Lemma pairs_split l1 x l2 : pairs = l1 ++ x :: l2 -> fst x < inum /\ snd x < N (fst x) /\
  forall y, fst y < inum -> snd y < N (fst y) -> (fst x < fst y \/ fst x = fst y /\ snd x < snd y) -> In y l2.
Proof.
  unfold pairs. assert (G : forall n s l1, flat_map (fun i => map (pair i) (seq 0 (N i))) (seq s n) = l1 ++ x :: l2 ->
    s <= fst x < s + n /\ snd x < N (fst x) /\
    forall y, fst y < s + n -> snd y < N (fst y) -> (fst x < fst y \/ fst x = fst y /\ snd x < snd y) -> In y l2).
  { induction n as [|n IH]; intros s m1 E; [destruct m1; discriminate|]. cbn [seq flat_map] in E.
    set (h := map (pair s) (seq 0 (N s))) in *. set (r := flat_map (fun i => map (pair i) (seq 0 (N i))) (seq (S s) n)) in *.
    assert (C : (exists m2, h = m1 ++ x :: m2 /\ l2 = m2 ++ r) \/ (exists m2, m1 = h ++ m2 /\ r = m2 ++ x :: l2)).
    { clear -E. revert m1 E. induction h as [|z h IHh]; intros m1 E; [right; exists m1; split; [reflexivity|exact E]|].
      destruct m1 as [|z1 m1]; cbn in E; injection E as -> E.
      - left. exists h. split; [reflexivity|symmetry; exact E].
      - destruct (IHh m1 E) as [(m2 & -> & ->)|(m2 & -> & F)].
        + left. exists m2. split; reflexivity.
        + right. exists m2. split; [reflexivity|exact F]. }
    destruct C as [(m2 & Eh & ->)|(m2 & _ & Er)].
    - apply map_split in Eh. destruct Eh as (n1 & j & n2 & Es & _ & -> & ->). apply split_seq in Es. destruct Es as (A & B & C).
      cbn [fst snd]. split; [lia|]. split; [lia|]. intros [i' j'] Y1 Y2 O. cbn [fst snd] in *. apply in_or_app. destruct O as [O|[O1 O2]].
      + right. unfold r. apply in_flat_map. exists i'. split; [apply in_seq; lia|]. apply in_map, in_seq. lia.
      + left. subst i'. apply in_map. apply C. lia.
    - destruct (IH (S s) m2 Er) as (A & B & C). split; [lia|]. split; [exact B|]. intros y Y1 Y2 O. apply C; [lia|exact Y2|exact O]. }
  intros E. destruct (G inum 0 l1 E) as (A & B & C). split; [lia|]. split; [exact B|]. intros y Y1. apply C. lia.
Qed.

(** Every slot holds what its last writer left, or the initial value. *)
Lemma fill_general : (forall i j, i < inum -> j < N i -> place i j < inum * reserved umax) ->
  exists a, fill zero g payload inum numneigh firstneigh types umax = Ok a /\ length a = inum * reserved umax * g /\
  forall q, q < inum * reserved umax ->
    (exists i j, i < inum /\ j < N i /\ place i j = q /\ group g q a = vals i j /\
       forall i' j', i' < inum -> j' < N i' -> place i' j' = q -> i' < i \/ i' = i /\ j' <= j) \/
    ((forall i j, i < inum -> j < N i -> place i j <> q) /\ group g q a = repeat zero g).
Proof using Hg Hok Hpay.
  intros HB. rewrite fill_writes.
  destruct (writes_ok g Hg (inum * reserved umax) all_writes (repeat zero (inum * reserved umax * g))) as (a & E & L & G).
  - apply repeat_length.
  - apply Forall_forall. intros w Hw. apply writes_in in Hw. destruct Hw as (i & j & A & B & ->). cbn.
    split; [apply HB; assumption|apply Hpay; assumption].
  - exists a. split; [exact E|]. split; [exact L|]. intros q Q. rewrite (G q Q).
    destruct (left_by_cases q all_writes (group g q (repeat zero (inum * reserved umax * g)))) as [(l1 & w & l2 & Ew & Fw & Lw & Nw)|[Nw Lw]].
    + left. rewrite all_writes_pairs in Ew. apply map_split in Ew. destruct Ew as (m1 & x & m2 & Ep & _ & -> & ->).
      destruct (pairs_split _ _ _ Ep) as (A & B & C). exists (fst x), (snd x). cbn [fst] in Fw. cbn [snd] in Lw.
      split; [exact A|]. split; [exact B|]. split; [exact Fw|]. split; [exact Lw|].
      intros i' j' I J P. destruct (Nat.lt_trichotomy i' (fst x)) as [O|[O|O]]; [left; exact O| |].
      * right. split; [exact O|]. destruct (Nat.le_gt_cases j' (snd x)) as [O2|O2]; [exact O2|]. exfalso.
        rewrite Forall_forall in Nw. apply (Nw (place i' j', vals i' j')); [|exact P].
        apply in_map_iff. exists (i', j'). split; [reflexivity|]. apply C; cbn; [exact I|exact J|right; split; [symmetry; exact O|exact O2]].
      * exfalso. rewrite Forall_forall in Nw. apply (Nw (place i' j', vals i' j')); [|exact P].
        apply in_map_iff. exists (i', j'). split; [reflexivity|]. apply C; cbn; [exact I|exact J|left; exact O].
    + right. split.
      * intros i j I J P. rewrite Forall_forall in Nw. apply (Nw (place i j, vals i j)); [apply writes_in; exists i, j; repeat split; assumption|exact P].
      * rewrite Lw. apply (group_ext g Hg _ _ _ (inum * reserved umax)); [apply repeat_length|apply repeat_length|exact Q|].
        intros k K. rewrite !nth_error_repeat; [reflexivity|exact K|]. nia.
Qed.

(** A write outside the memory. *)
Lemma fill_outside i j : i < inum -> j < N i -> inum * reserved umax <= place i j ->
  fill zero g payload inum numneigh firstneigh types umax = Err IndexError.
Proof using Hg Hok Hpay.
  intros I J P. rewrite fill_writes. apply (writes_bad g Hg (inum * reserved umax)).
  - apply repeat_length.
  - apply Forall_forall. intros w Hw. apply writes_in in Hw. destruct Hw as (i' & j' & A & B & ->). apply Hpay; assumption.
  - apply Exists_exists. exists (place i j, vals i j). split; [apply writes_in; exists i, j; repeat split; assumption|exact P].
Qed.

(** Rank and the list of neighbours of a type. *)
Lemma filter_nth_rank (f : nat -> bool) n j d : j < n -> f j = true ->
  nth (length (filter f (seq 0 j))) (filter f (seq 0 n)) d = j /\ length (filter f (seq 0 j)) < length (filter f (seq 0 n)).
Proof.
  intros H F. replace n with (j + S (n - S j)) by lia. rewrite seq_app, filter_app. cbn [seq filter Nat.add]. rewrite F.
  split; [rewrite app_nth2 by lia; rewrite Nat.sub_diag; reflexivity|rewrite app_length; cbn; lia].
Qed.
Lemma filter_nth_inv (f : nat -> bool) n p j : nth_error (filter f (seq 0 n)) p = Some j ->
  j < n /\ f j = true /\ length (filter f (seq 0 j)) = p.
Proof.
  intros H. assert (I := nth_error_In _ _ H). apply filter_In in I. destruct I as [I F]. apply in_seq in I.
  split; [lia|]. split; [exact F|]. destruct (filter_nth_rank f n j 0 ltac:(lia) F) as [A B].
  assert (ND : NoDup (filter f (seq 0 n))) by (apply NoDup_filter, seq_NoDup).
  apply (proj1 (NoDup_nth_error _) ND); [exact B|]. rewrite H, (nth_error_nth' _ 0 B), A. reflexivity.
Qed.

Lemma place_inside i j : i < inum -> j < N i -> enough_reserved inum numneigh firstneigh types umax ->
  T i j < length umax /\ rk i j < nth (T i j) umax 0.
Proof using Hg Hok.
  intros I J E. destruct Hok as [_ Ht]. destruct (Ht i j I J) as (_ & _ & C). split; [exact C|].
  specialize (E i (T i j) I C). unfold of_type in E. unfold rank.
  destruct (filter_nth_rank (fun j' => T i j' =? T i j) (N i) j 0 J) as [_ B]; [apply Nat.eqb_refl|]. lia.
Qed.

(** The layout when enough slots are reserved. *)
Lemma fill_layout : enough_reserved inum numneigh firstneigh types umax ->
  exists a, fill zero g payload inum numneigh firstneigh types umax = Ok a /\ length a = inum * reserved umax * g /\
  forall i t p, i < inum -> t < length umax -> p < nth t umax 0 ->
    group g (slot_of umax i t p) a =
    match nth_error (of_type (reserved umax) numneigh firstneigh types i t) p with
    | Some j => vals i j
    | None => repeat zero g
    end.
Proof using Hg Hok Hpay.
  intros E. destruct fill_general as (a & F & L & G).
  - intros i j I J. destruct (place_inside i j I J E) as [A B]. apply slot_bound; assumption.
  - exists a. split; [exact F|]. split; [exact L|]. intros i t p I Ht P.
    assert (U : forall i' j', i' < inum -> j' < N i' -> place i' j' = slot_of umax i t p ->
                i' = i /\ nth_error (of_type (reserved umax) numneigh firstneigh types i t) p = Some j').
    { intros i' j' I' J' Q. destruct (place_inside i' j' I' J' E) as [A B].
      destruct (slot_inj umax _ _ _ _ _ _ A B Ht P Q) as (-> & X & Y). split; [reflexivity|].
      unfold of_type. destruct (filter_nth_rank (fun j => T i j =? t) (N i) j' 0 J') as [C D]; [apply Nat.eqb_eq; exact X|].
      unfold rank in Y. rewrite X in Y. rewrite Y in C, D. rewrite (nth_error_nth' _ 0 D), C. reflexivity. }
    destruct (G (slot_of umax i t p) (slot_bound umax inum i t p I Ht P)) as [(i' & j' & I' & J' & Q & Gr & _)|[Nn Gr]].
    + destruct (U i' j' I' J' Q) as [-> Y]. rewrite Y. exact Gr.
    + destruct (nth_error _ p) as [j|] eqn:X; [|exact Gr]. exfalso. unfold of_type in X. apply filter_nth_inv in X.
      destruct X as (J & Y & R). apply Nat.eqb_eq in Y. apply (Nn i j I J). unfold place, rank. rewrite Y, R. reflexivity.
Qed.
End Loops.

(** *** The concrete functions *)

Lemma env_position_ok rel w i j : 3 * (i * w + j) + 2 < length rel -> env_position rel w i j = Ok (point rel (i * w + j)).
Proof.
  intros H. unfold env_position.
  replace (i * w * 3 + j * 3 + 0) with (3 * (i * w + j)) by ring. replace (i * w * 3 + j * 3 + 1) with (3 * (i * w + j) + 1) by ring.
  replace (i * w * 3 + j * 3 + 2) with (3 * (i * w + j) + 2) by ring. rewrite (get_ok rel _ 0%R) by lia. cbn [bind]. rewrite (get_ok rel _ 0%R) by lia. cbn [bind].
  rewrite (get_ok rel _ 0%R) by lia. reflexivity.
Qed.
Lemma read_atom_ok x i : 3 * i + 2 < length x -> read_atom x i = Ok (point x i).
Proof.
  intros H. unfold read_atom. replace (i * 3 + 0) with (3 * i) by ring. replace (i * 3) with (3 * i) by ring. rewrite (get_ok x _ 0%R) by lia. cbn [bind]. rewrite (get_ok x _ 0%R) by lia. cbn [bind].
  rewrite (get_ok x _ 0%R) by lia. reflexivity.
Qed.

Lemma env_layout inum numneigh firstneigh rel types umax rc rs :
  table_ok inum numneigh firstneigh types umax -> enough_reserved inum numneigh firstneigh types umax ->
  (forall i j, i < inum -> j < nth i numneigh 0 -> 3 * (i * reserved umax + j) + 2 < length rel) ->
  exists v dv, find_value_deriv inum numneigh firstneigh rel types umax rc rs = Ok (v, dv) /\
  length v = inum * reserved umax * 4 /\ length dv = inum * reserved umax * 12 /\
  forall i t p, i < inum -> t < length umax -> p < nth t umax 0 ->
    match nth_error (of_type (reserved umax) numneigh firstneigh types i t) p with
    | Some j => group 4 (slot_of umax i t p) v = tilde_row rc rs (point rel (i * reserved umax + j)) /\
                group 12 (slot_of umax i t p) dv = concat (env_deriv rc rs (point rel (i * reserved umax + j)))
    | None => group 4 (slot_of umax i t p) v = repeat 0%R 4 /\ group 12 (slot_of umax i t p) dv = repeat 0%R 12
    end.
Proof.
  intros T E C. unfold find_value_deriv. rewrite width_sum.
  destruct (fill_layout 0%R 4 (fun ii jj _ => bind (env_position rel (reserved umax) ii jj) (fun d => Ok (tilde_row rc rs d)))
     inum numneigh firstneigh types umax (fun i j => tilde_row rc rs (point rel (i * reserved umax + j)))) as (v & Fv & Lv & Gv);
    [lia|exact T| |exact E|].
  { intros i j I J. rewrite env_position_ok by (apply C; assumption). split; reflexivity. }
  destruct (fill_layout 0%R 12 (fun ii jj _ => bind (env_position rel (reserved umax) ii jj) (fun d => Ok (concat (env_deriv rc rs d))))
     inum numneigh firstneigh types umax (fun i j => concat (env_deriv rc rs (point rel (i * reserved umax + j))))) as (dv & Fd & Ld & Gd);
    [lia|exact T| |exact E|].
  { intros i j I J. rewrite env_position_ok by (apply C; assumption). split; reflexivity. }
  exists v, dv. rewrite Fv. cbn [bind]. rewrite Fd. cbn [bind]. split; [reflexivity|]. split; [exact Lv|]. split; [exact Ld|].
  intros i t p I Ht P. specialize (Gv i t p I Ht P). specialize (Gd i t p I Ht P).
  destruct (nth_error _ p); split; assumption.
Qed.

Lemma pw_layout inum ilist numneigh firstneigh x types umax rc rs :
  table_ok inum numneigh firstneigh types umax -> enough_reserved inum numneigh firstneigh types umax ->
  inum <= length ilist -> (forall i, i < inum -> 3 * nth i ilist 0 + 2 < length x) ->
  (forall i j, i < inum -> j < nth i numneigh 0 -> 3 * neighbour (reserved umax) firstneigh i j + 2 < length x) ->
  exists v dv rel, se4pw_generate inum ilist numneigh firstneigh x types umax rc rs = Ok (v, dv, rel) /\
  length v = inum * reserved umax * 4 /\ length dv = inum * reserved umax * 12 /\ length rel = inum * reserved umax * 3 /\
  forall i t p, i < inum -> t < length umax -> p < nth t umax 0 ->
    match nth_error (of_type (reserved umax) numneigh firstneigh types i t) p with
    | Some j => let d := vsub (point x (neighbour (reserved umax) firstneigh i j)) (point x (nth i ilist 0)) in
                group 4 (slot_of umax i t p) v = tilde_row rc rs d /\
                group 12 (slot_of umax i t p) dv = concat (pair_deriv rc rs d) /\
                group 3 (slot_of umax i t p) rel = [vx d; vy d; vz d]
    | None => group 4 (slot_of umax i t p) v = repeat 0%R 4 /\ group 12 (slot_of umax i t p) dv = repeat 0%R 12 /\
              group 3 (slot_of umax i t p) rel = repeat 0%R 3
    end.
Proof.
  intros T E Li Ci Cn. unfold se4pw_generate. cbv zeta.
  set (D := fun i j => vsub (point x (neighbour (reserved umax) firstneigh i j)) (point x (nth i ilist 0))).
  assert (P : forall i j, i < inum -> j < nth i numneigh 0 -> pw_position ilist x i (neighbour (reserved umax) firstneigh i j) = Ok (D i j)).
  { intros i j I J. unfold pw_position. rewrite (get_ok ilist i 0) by lia. cbn [bind]. rewrite read_atom_ok by (apply Ci; exact I). cbn [bind].
    rewrite read_atom_ok by (apply Cn; assumption). reflexivity. }
  destruct (fill_layout 0%R 4 (fun ii _ idx => bind (pw_position ilist x ii idx) (fun d => Ok (tilde_row rc rs d)))
     inum numneigh firstneigh types umax (fun i j => tilde_row rc rs (D i j))) as (v & Fv & Lv & Gv);
    [lia|exact T|intros i j I J; rewrite P by assumption; split; reflexivity|exact E|].
  destruct (fill_layout 0%R 12 (fun ii _ idx => bind (pw_position ilist x ii idx) (fun d => Ok (concat (pair_deriv rc rs d))))
     inum numneigh firstneigh types umax (fun i j => concat (pair_deriv rc rs (D i j)))) as (dv & Fd & Ld & Gd);
    [lia|exact T|intros i j I J; rewrite P by assumption; split; reflexivity|exact E|].
  destruct (fill_layout 0%R 3 (fun ii _ idx => bind (pw_position ilist x ii idx) (fun d => Ok [vx d; vy d; vz d]))
     inum numneigh firstneigh types umax (fun i j => [vx (D i j); vy (D i j); vz (D i j)])) as (rel & Fr & Lr & Gr);
    [lia|exact T|intros i j I J; rewrite P by assumption; split; reflexivity|exact E|].
  exists v, dv, rel. rewrite Fv. cbn [bind]. rewrite Fd. cbn [bind]. rewrite Fr. cbn [bind].
  split; [reflexivity|]. split; [exact Lv|]. split; [exact Ld|]. split; [exact Lr|].
  intros i t p I Ht Hp. specialize (Gv i t p I Ht Hp). specialize (Gd i t p I Ht Hp). specialize (Gr i t p I Ht Hp).
  destruct (nth_error _ p); repeat split; assumption.
Qed.

Lemma prim_layout inum numneigh firstneigh types umax :
  table_ok inum numneigh firstneigh types umax -> enough_reserved inum numneigh firstneigh types umax ->
  exists a, prim_indices inum numneigh firstneigh types umax = Ok a /\ length a = inum * reserved umax /\
  forall i t p, i < inum -> t < length umax -> p < nth t umax 0 ->
    nth_error a (slot_of umax i t p) =
    match nth_error (of_type (reserved umax) numneigh firstneigh types i t) p with
    | Some j => Some (Z.of_nat (neighbour (reserved umax) firstneigh i j mod inum))
    | None => Some (-1)%Z
    end.
Proof.
  intros T E. unfold prim_indices.
  destruct (fill_layout (-1)%Z 1 (fun _ _ idx => Ok [Z.rem (Z.of_nat idx) (Z.of_nat inum)]) inum numneigh firstneigh types umax
     (fun i j => [Z.rem (Z.of_nat (neighbour (reserved umax) firstneigh i j)) (Z.of_nat inum)])) as (a & F & L & G);
    [lia|exact T|intros; split; reflexivity|exact E|].
  exists a. split; [exact F|]. split; [lia|]. intros i t p I Ht Hp. specialize (G i t p I Ht Hp).
  assert (X := group_nth 1 ltac:(lia) a (slot_of umax i t p) 0 ltac:(lia)). rewrite Nat.mul_1_r, Nat.add_0_r in X. rewrite <- X, G.
  destruct (nth_error _ p); cbn; [|reflexivity]. f_equal. rewrite Z.rem_mod_nonneg by lia. rewrite Nat2Z.inj_mod. reflexivity.
Qed.

(** Surplus neighbours, for the environment matrix. *)
Lemma env_outside inum numneigh firstneigh rel types umax rc rs i j :
  table_ok inum numneigh firstneigh types umax ->
  (forall i j, i < inum -> j < nth i numneigh 0 -> 3 * (i * reserved umax + j) + 2 < length rel) ->
  i < inum -> j < nth i numneigh 0 ->
  inum * reserved umax <= slot_of umax i (neighbour_type (reserved umax) firstneigh types i j) (rank (reserved umax) firstneigh types i j) ->
  find_value_deriv inum numneigh firstneigh rel types umax rc rs = Err IndexError.
Proof.
  intros T C I J P. unfold find_value_deriv. rewrite width_sum.
  rewrite (fill_outside 0%R 4 _ inum numneigh firstneigh types umax (fun i j => tilde_row rc rs (point rel (i * reserved umax + j))) ltac:(lia) T) with (i := i) (j := j);
    [reflexivity| |exact I|exact J|exact P].
  intros i' j' I' J'. rewrite env_position_ok by (apply C; assumption). split; reflexivity.
Qed.

Lemma env_general inum numneigh firstneigh rel types umax rc rs :
  let place i j := slot_of umax i (neighbour_type (reserved umax) firstneigh types i j) (rank (reserved umax) firstneigh types i j) in
  table_ok inum numneigh firstneigh types umax ->
  (forall i j, i < inum -> j < nth i numneigh 0 -> 3 * (i * reserved umax + j) + 2 < length rel) ->
  (forall i j, i < inum -> j < nth i numneigh 0 -> place i j < inum * reserved umax) ->
  exists v dv, find_value_deriv inum numneigh firstneigh rel types umax rc rs = Ok (v, dv) /\
  forall q, q < inum * reserved umax ->
    (exists i j, i < inum /\ j < nth i numneigh 0 /\ place i j = q /\
       (forall i' j', i' < inum -> j' < nth i' numneigh 0 -> place i' j' = q -> i' < i \/ i' = i /\ j' <= j) /\
       group 4 q v = tilde_row rc rs (point rel (i * reserved umax + j)) /\
       group 12 q dv = concat (env_deriv rc rs (point rel (i * reserved umax + j)))) \/
    ((forall i j, i < inum -> j < nth i numneigh 0 -> place i j <> q) /\ group 4 q v = repeat 0%R 4 /\ group 12 q dv = repeat 0%R 12).
Proof.
  intros place T C B. unfold find_value_deriv. rewrite width_sum.
  destruct (fill_general 0%R 4 (fun ii jj _ => bind (env_position rel (reserved umax) ii jj) (fun d => Ok (tilde_row rc rs d)))
     inum numneigh firstneigh types umax (fun i j => tilde_row rc rs (point rel (i * reserved umax + j)))) as (v & Fv & Lv & Gv);
    [lia|exact T| |exact B|].
  { intros i j I J. rewrite env_position_ok by (apply C; assumption). split; reflexivity. }
  destruct (fill_general 0%R 12 (fun ii jj _ => bind (env_position rel (reserved umax) ii jj) (fun d => Ok (concat (env_deriv rc rs d))))
     inum numneigh firstneigh types umax (fun i j => concat (env_deriv rc rs (point rel (i * reserved umax + j))))) as (dv & Fd & Ld & Gd);
    [lia|exact T| |exact B|].
  { intros i j I J. rewrite env_position_ok by (apply C; assumption). split; reflexivity. }
  exists v, dv. rewrite Fv. cbn [bind]. rewrite Fd. cbn [bind]. split; [reflexivity|].
  intros q Q. destruct (Gv q Q) as [(i & j & I & J & P & G & U)|[Nn G]], (Gd q Q) as [(i' & j' & I' & J' & P' & G' & U')|[Nn' G']].
  - left. exists i, j. assert (i' = i /\ j' = j) as [-> ->].
    { specialize (U i' j' I' J' P'). specialize (U' i j I J P). lia. }
    repeat split; try assumption.
  - exfalso. exact (Nn' i j I J P).
  - exfalso. exact (Nn i' j' I' J' P').
  - right. repeat split; assumption.
Qed.

(** The first surplus slot of a block is the first slot of the next block. *)
Lemma surplus_next_type umax i t p : t < length umax -> slot_of umax i t (nth t umax 0 + p) = slot_of umax i (S t) p.
Proof. intros T. unfold slot_of. rewrite sum_firstn_S by exact T. lia. Qed.
Lemma surplus_next_centre umax i p : slot_of umax i (length umax) p = slot_of umax (S i) 0 p.
Proof. unfold slot_of. rewrite firstn_all. cbn [firstn]. rewrite lsum_nil. unfold reserved. lia. Qed.

Lemma slot_case :
  table_ok 2 [2; 3] [1; 0; 0; 1; 0; 0] [0; 1] [2; 1] /\ enough_reserved 2 [2; 3] [1; 0; 0; 1; 0; 0] [0; 1] [2; 1] /\
  prim_indices 2 [2; 3] [1; 0; 0; 1; 0; 0] [0; 1] [2; 1] = Ok [0; -1; 1; 0; 0; 1]%Z.
Proof.
  split; [|split; [|reflexivity]].
  - split; [cbn; lia|]. intros i j I J. destruct i as [|[|i]]; [| |lia]; cbn in J; destruct j as [|[|[|j]]]; try (exfalso; lia); repeat split; apply Nat.ltb_lt; reflexivity.
  - intros i t I Ht. cbn in Ht. destruct i as [|[|i]]; [| |lia]; destruct t as [|[|t]]; try lia; apply Nat.leb_le; reflexivity.
Qed.
Lemma slot_surplus_case :
  table_ok 1 [3] [0; 2; 1] [0; 1; 0] [1; 2] /\
  prim_indices 1 [3] [0; 2; 1] [0; 1; 0] [1; 2] = Ok [0; 0; -1]%Z /\
  rank 3 [0; 2; 1] [0; 1; 0] 0 1 = 1 /\ slot_of [1; 2] 0 0 1 = slot_of [1; 2] 0 1 0.
Proof.
  split; [|repeat split].
  split; [cbn; lia|]. intros i j I J. destruct i as [|i]; [|lia]; cbn in J; destruct j as [|[|[|j]]]; try (exfalso; lia); repeat split; apply Nat.ltb_lt; reflexivity.
Qed.
