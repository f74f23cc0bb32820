From Coq Require Import Sorted.
From Verif Require Import Text TextProofs Vec NbMlffProofs KptModel KptSpec.
Open Scope nat_scope.
Open Scope list_scope.

(** ** Keys and jumps *)
Lemma jumps_in keys b : StronglySorted lt keys -> (In b (jumps keys) <-> In b keys /\ exists a, b = S a /\ In a keys).
Proof.
  induction 1 as [|a keys Hs IH Ha]; [cbn; firstorder|]. destruct keys as [|c keys].
  - cbn. split; [tauto|]. intros ([E|[]] & x & -> & [E'|[]]). lia.
  - assert (Hc : a < c) by (inversion Ha; assumption). change (jumps (a :: c :: keys)) with (if c - a =? 1 then c :: jumps (c :: keys) else jumps (c :: keys)).
    assert (Hge : forall y, In y (c :: keys) -> c <= y). { intros y [->|I]; [lia|]. inversion Hs as [|? ? ? F]; subst. rewrite Forall_forall in F. specialize (F y I). lia. }
    destruct (Nat.eqb_spec (c - a) 1) as [E|E].
    + cbn [In]. rewrite IH. split.
      * intros [<-|(I & x & -> & I')]; [split; [right; left; reflexivity|]; exists a; split; [lia|left; reflexivity]|]. split; [tauto|]. exists x. cbn [In] in *. tauto.
      * intros ([Eb|I] & x & E1 & I2). { exfalso. subst b. destruct I2 as [Ex|I2]; [lia|]. specialize (Hge x I2). lia. }
        destruct I2 as [<-|I2]; [left; lia|]. right. split; [exact I|]. exists x. split; [exact E1|exact I2].
    + rewrite IH. split.
      * intros (I & x & -> & I'). cbn [In] in *. split; [tauto|]. exists x. tauto.
      * intros ([Eb|I] & x & E1 & I2). { exfalso. subst b. destruct I2 as [Ex|I2]; [lia|]. specialize (Hge x I2). lia. }
        destruct I2 as [<-|I2]; [specialize (Hge b I); exfalso; lia|]. split; [exact I|]. exists x. split; [exact E1|exact I2].
Qed.

Lemma jumps_sorted keys : StronglySorted lt keys -> StronglySorted lt (jumps keys).
Proof.
  induction 1 as [|a keys Hs IH Ha]; [constructor|]. destruct keys as [|c keys]; [constructor|].
  change (jumps (a :: c :: keys)) with (if c - a =? 1 then c :: jumps (c :: keys) else jumps (c :: keys)). destruct (c - a =? 1); [|exact IH].
  constructor; [exact IH|]. apply Forall_forall. intros x I. apply (jumps_in _ _ Hs) in I. destruct I as ([Ec|I] & y & E & I').
  - subst x. destruct I' as [Ey|I']; [lia|]. inversion Hs as [|? ? ? F]; subst. rewrite Forall_forall in F. specialize (F y I'). lia.
  - inversion Hs as [|? ? ? F]; subst. rewrite Forall_forall in F. exact (F _ I).
Qed.

Lemma filter_fst_sorted (f : nat * string -> bool) lines i : StronglySorted lt (map fst (filter f (combine (seq i (List.length lines)) lines))).
Proof.
  revert i. induction lines as [|l r IH]; intros i; [constructor|]. cbn [List.length seq combine filter].
  assert (B : forall x, In x (map fst (filter f (combine (seq (S i) (List.length r)) r))) -> i < x).
  { intros x I. apply in_map_iff in I. destruct I as ([k t] & <- & I). apply filter_In in I. destruct I as [I _]. apply in_combine_l, in_seq in I. cbn. lia. }
  destruct (f (i, l)); [|apply IH]. cbn [map fst]. constructor; [apply IH|]. apply Forall_forall. exact B.
Qed.

Lemma in_combine_seq (lines : list string) i k t : In (k, t) (combine (seq i (List.length lines)) lines) <-> i <= k /\ nth_error lines (k - i) = Some t.
Proof.
  revert i. induction lines as [|l r IH]; intros i; cbn [List.length seq combine In].
  - split; [tauto|]. intros [_ H]. destruct (k - i); discriminate.
  - rewrite IH. split.
    + intros [E|[L H]]; [injection E as -> ->; rewrite Nat.sub_diag; auto|]. split; [lia|]. replace (k - i) with (S (k - S i)) by lia. exact H.
    + intros [L H]. destruct (Nat.eq_dec k i) as [->|N]; [rewrite Nat.sub_diag in H; left; cbn in H; congruence|]. right. split; [lia|]. replace (k - i) with (S (k - S i)) in H by lia. exact H.
Qed.

Lemma hsp_in lines i : In i (hsp_indices lines) <-> exists l, nth_error lines i = Some l /\ labelled l.
Proof.
  unfold hsp_indices. rewrite in_map_iff. split.
  - intros ([k t] & <- & I). apply filter_In in I. destruct I as [I H]. apply in_combine_seq in I. rewrite Nat.sub_0_r in I. cbn in *. exists t. split; [tauto|]. apply Nat.eqb_eq. exact H.
  - intros (l & E & H). exists (i, l). split; [reflexivity|]. apply filter_In. split; [|apply Nat.eqb_eq; exact H]. apply in_combine_seq. rewrite Nat.sub_0_r. split; [lia|exact E].
Qed.

Lemma jumps_hsp lines j : In (S j) (jumps (hsp_indices lines)) <-> jump_at lines j.
Proof.
  rewrite jumps_in by apply filter_fst_sorted. unfold jump_at. split.
  - intros (I & a & E & Ia). injection E as <-. apply hsp_in in I, Ia. destruct I as (l2 & ? & ?), Ia as (l1 & ? & ?). exists l1, l2. auto.
  - intros (l1 & l2 & E1 & E2 & H1 & H2). split; [apply hsp_in; eauto|]. exists j. split; [reflexivity|apply hsp_in; eauto].
Qed.

(** ** Steps of a list *)
Fixpoint steps (l : list R) : list R :=
  match l with x :: (y :: _) as r => (y - x)%R :: steps r | _ => [] end.

Lemma steps_cons2 x y l : steps (x :: y :: l) = ((y - x)%R :: steps (y :: l)). Proof. reflexivity. Qed.
Lemma steps_length l : List.length (steps l) = List.length l - 1.
Proof. induction l as [|x [|y l] IH]; [reflexivity..|]. rewrite steps_cons2. cbn [List.length] in *. lia. Qed.
Lemma steps_nth l j : S j < List.length l -> nth j (steps l) 0%R = (nth (S j) l 0 - nth j l 0)%R.
Proof.
  revert j. induction l as [|x [|y l] IH]; intros j H; [cbn in H; lia..|]. rewrite steps_cons2. destruct j as [|j]; [reflexivity|].
  cbn [nth]. rewrite IH by (cbn [List.length] in *; lia). reflexivity.
Qed.
Lemma steps_app x y b : steps (x ++ y :: b) = steps x ++ (match rev x with [] => [] | c :: _ => [(y - c)%R] end) ++ steps (y :: b).
Proof.
  induction x as [|a [|a' x] IH]; [reflexivity|reflexivity|]. change ((a :: a' :: x) ++ y :: b) with (a :: a' :: (x ++ y :: b)). rewrite !steps_cons2.
  change (a' :: x ++ y :: b) with ((a' :: x) ++ y :: b). rewrite IH. cbn [app]. f_equal. f_equal. cbn [rev]. destruct (rev x) as [|z r]; reflexivity.
Qed.
Lemma steps_shift c m l : steps (map (fun d => d + c - m)%R l) = steps l.
Proof. induction l as [|x [|y l] IH]; [reflexivity..|]. cbn [map]. rewrite !steps_cons2. f_equal; [ring|exact IH]. Qed.

Lemma join_ok segs : Forall (fun s => s <> []) segs -> forall out, out <> [] ->
  exists r, join out segs = Ok r /\ steps r = steps out ++ flat_map (fun s => 0%R :: steps s) segs /\ List.length r = List.length out + List.length (concat segs) /\ hd_error r = hd_error out.
Proof.
  induction 1 as [|s segs Hs _ IH]; intros out Ho.
  - exists out. cbn. rewrite app_nil_r. auto.
  - destruct s as [|m s]; [congruence|]. cbn [join]. unfold last_of. destruct (rev out) as [|c ro] eqn:Er. { exfalso. apply Ho. rewrite <- (rev_involutive out), Er. reflexivity. }
    cbn [bind]. change (get (m :: s) 0) with (Ok m). cbn [bind]. destruct (IH (out ++ map (fun d => d + c - m)%R (m :: s))) as (r & E & St & L & Hd).
    { destruct out; [congruence|discriminate]. }
    exists r. split; [exact E|]. split; [|split].
    + rewrite St. cbn [map]. rewrite steps_app, Er. cbn [flat_map]. rewrite <- !app_assoc. f_equal. cbn [app]. f_equal; [ring|]. f_equal.
      change ((m + c - m)%R :: map (fun d => (d + c - m)%R) s) with (map (fun d => (d + c - m)%R) (m :: s)). apply steps_shift.
    + rewrite L, app_length, map_length. cbn [concat]. rewrite app_length. lia.
    + rewrite Hd. destruct out; [congruence|reflexivity].
Qed.

(** ** Cutting *)
Lemma slice_nth a b (l : list R) j : a <= b -> b <= List.length l -> j < b - a -> nth j (slice a b l) 0%R = nth (a + j) l 0%R.
Proof.
  intros Hab Hb Hj. unfold slice. rewrite <- (firstn_skipn a l) at 2. rewrite app_nth2 by (rewrite firstn_length; lia). rewrite firstn_length.
  replace (a + j - Nat.min a (List.length l)) with j by lia. rewrite <- (firstn_skipn (b - a) (skipn a l)) at 2. rewrite app_nth1 by (rewrite firstn_length, skipn_length; lia). reflexivity.
Qed.
Lemma slice_length a b (l : list R) : a <= b -> b <= List.length l -> List.length (slice a b l) = b - a.
Proof. intros. unfold slice. rewrite firstn_length, skipn_length. lia. Qed.

Lemma list_ext (l m : list R) : List.length l = List.length m -> (forall j, j < List.length l -> nth j l 0%R = nth j m 0%R) -> l = m.
Proof. intros. apply (nth_ext _ _ 0%R 0%R); assumption. Qed.

Lemma steps_slice a b l : a <= b -> b <= List.length l -> steps (slice a b l) = map (fun j => nth (S j) l 0 - nth j l 0)%R (seq a (b - a - 1)).
Proof.
  intros Ha Hb. apply list_ext.
  - rewrite steps_length, slice_length, map_length, seq_length by assumption. reflexivity.
  - intros j Hj. rewrite steps_length, slice_length in Hj by assumption. rewrite steps_nth by (rewrite slice_length; lia). rewrite !slice_nth by lia.
    rewrite (nth_indep (map _ _) 0%R (nth (S 0) l 0 - nth 0 l 0)%R) by (rewrite map_length, seq_length; lia).
    rewrite (map_nth (fun j => nth (S j) l 0 - nth j l 0)%R). rewrite seq_nth by lia. do 2 f_equal. lia.
Qed.

Definition step_or_jump (J : list nat) (l : list R) (j : nat) : R := if existsb (Nat.eqb (S j)) J then 0%R else (nth (S j) l 0 - nth j l 0)%R.

Lemma step_jump J l j : In (S j) J -> step_or_jump J l j = 0%R.
Proof. intros I. unfold step_or_jump. replace (existsb (Nat.eqb (S j)) J) with true; [reflexivity|]. symmetry. apply existsb_exists. exists (S j). split; [exact I|apply Nat.eqb_refl]. Qed.
Lemma step_plain J l j : ~ In (S j) J -> step_or_jump J l j = (nth (S j) l 0 - nth j l 0)%R.
Proof. intros I. unfold step_or_jump. destruct (existsb (Nat.eqb (S j)) J) eqn:E; [|reflexivity]. exfalso. apply I. apply existsb_exists in E. destruct E as (x & Ix & E). apply Nat.eqb_eq in E. congruence. Qed.

Lemma cut_steps l rest : forall a, StronglySorted lt (a :: rest) -> (forall x, In x rest -> x < List.length l) -> a < List.length l ->
  exists s segs, cut_at l (a :: rest ++ [List.length l]) = s :: segs /\ s <> [] /\ Forall (fun t => t <> []) segs /\ hd_error s = nth_error l a /\
    List.length s + List.length (concat segs) = List.length l - a /\
    forall J, (forall x, In x rest -> In x J) -> (forall x, In x J -> a < x -> In x rest) ->
    steps s ++ flat_map (fun t => 0%R :: steps t) segs = map (step_or_jump J l) (seq a (List.length l - a - 1)).
Proof.
  assert (Hd : forall a b, a < b -> b <= List.length l -> hd_error (slice a b l) = nth_error l a).
  { intros a b Hab Hb. unfold slice. rewrite <- (firstn_skipn a l) at 2. rewrite nth_error_app2 by (rewrite firstn_length; lia). rewrite firstn_length.
    replace (a - Nat.min a (List.length l)) with 0 by lia. destruct (skipn a l); [destruct (b - a); reflexivity|]. destruct (b - a) eqn:E; [lia|reflexivity]. }
  assert (Ne : forall a b, a < b -> b <= List.length l -> slice a b l <> []). { intros a b Hab Hb E. assert (L := slice_length a b l). rewrite E in L. cbn in L. lia. }
  induction rest as [|b rest IH]; intros a Hs Hb Ha.
  - exists (slice a (List.length l) l), []. cbn [app cut_at]. split; [reflexivity|]. split; [apply Ne; lia|]. split; [constructor|]. split; [apply Hd; lia|]. split.
    + rewrite slice_length by lia. cbn. lia.
    + intros J _ HJ. cbn [flat_map]. rewrite app_nil_r, steps_slice by lia. apply map_ext_in. intros j Ij. apply in_seq in Ij. symmetry. apply step_plain. intros I. apply (HJ _ I). lia.
  - inversion Hs as [|? ? Hs' Hf]; subst. assert (Hab : a < b) by (inversion Hf; assumption). assert (Hbl : b < List.length l) by (apply Hb; left; reflexivity).
    destruct (IH b Hs' ltac:(intros x I; apply Hb; right; exact I) Hbl) as (s & segs & E & Hn & Hf' & Hh & L & St).
    exists (slice a b l), (s :: segs). cbn [app] in *. change (cut_at l (a :: b :: rest ++ [List.length l])) with (slice a b l :: cut_at l (b :: rest ++ [List.length l])). rewrite E.
    split; [reflexivity|]. split; [apply Ne; lia|]. split; [constructor; assumption|]. split; [apply Hd; lia|]. split.
    + rewrite slice_length by lia. cbn [concat]. rewrite app_length. lia.
    + intros J HJ1 HJ2. cbn [flat_map]. cbn [app]. rewrite (St J).
      * rewrite steps_slice by lia. replace (List.length l - a - 1) with ((b - a - 1) + S (List.length l - b - 1)) by lia. rewrite seq_app, map_app. f_equal.
        -- apply map_ext_in. intros j Ij. apply in_seq in Ij. symmetry. apply step_plain. intros I. assert (I' := HJ2 _ I ltac:(lia)). destruct I' as [I'|I']; [lia|]. inversion Hs' as [|? ? ? F]; subst. rewrite Forall_forall in F. specialize (F _ I'). lia.
        -- cbn [seq map]. replace (a + (b - a - 1)) with (b - 1) by lia. replace (S (b - 1)) with b by lia. f_equal. symmetry. apply step_jump. replace (S (b - 1)) with b by lia. apply HJ1. left. reflexivity.
      * intros x I. apply HJ1. right. exact I.
      * intros x I Hx. destruct (HJ2 x I ltac:(lia)) as [->|I']; [lia|exact I'].
Qed.

(** ** Cumulative sums *)
Lemma cumsum_length acc l : List.length (cumsum_from acc l) = List.length l.
Proof. revert acc. induction l; intros; cbn; auto. Qed.
Lemma cumsum_step acc l j : S j < List.length l -> (nth (S j) (cumsum_from acc l) 0 - nth j (cumsum_from acc l) 0 = nth (S j) l 0)%R.
Proof.
  revert acc j. induction l as [|x l IH]; intros acc j H; [cbn in H; lia|]. destruct j as [|j].
  - destruct l as [|y l]; [cbn in H; lia|]. cbn. ring.
  - cbn [cumsum_from nth]. change (nth (S j) (x :: l) 0%R) with (nth j l 0%R). specialize (IH (acc + x)%R j). cbn [List.length] in H. rewrite <- IH by lia. reflexivity.
Qed.

Lemma diffs_length l : List.length (diffs l) = List.length l - 1.
Proof. induction l as [|x [|y l] IH]; [reflexivity..|]. change (diffs (x :: y :: l)) with (sqrt (norm2 (vsub y x)) :: diffs (y :: l)). cbn [List.length] in *. lia. Qed.
Lemma diffs_nth l j p q : nth_error l j = Some p -> nth_error l (S j) = Some q -> nth j (diffs l) 0%R = sqrt (norm2 (vsub q p)).
Proof.
  revert j. induction l as [|x [|y l] IH]; intros j H1 H2; [destruct j; discriminate| |].
  { destruct j; [discriminate|]. destruct j; discriminate. }
  change (diffs (x :: y :: l)) with (sqrt (norm2 (vsub y x)) :: diffs (y :: l)). destruct j as [|j]; [cbn in *; congruence|]. exact (IH j H1 H2).
Qed.

(** ** The path *)
Section Path.
Variable float_of : string -> result R.
Variables (b1 b2 b3 : vec).
Let cart (f : vec) : vec := comb b1 b2 b3 (vx f) (vy f) (vz f).

Lemma coord_reads line f : reads_coord float_of line f -> coord_of float_of line = Ok f.
Proof.
  intros (s1 & s2 & s3 & rest & E & E1 & E2 & E3). unfold coord_of. rewrite E. cbn [firstn mapM]. rewrite E1, E2, E3. cbn [bind]. destruct f as [[x y] z]. reflexivity.
Qed.
Lemma coord_of_reads line f : coord_of float_of line = Ok f -> reads_coord float_of line f.
Proof.
  unfold coord_of, reads_coord. destruct (split_ws line) as [|s1 [|s2 [|s3 rest]]]; cbn [firstn mapM bind]; [discriminate| | |].
  - destruct (float_of s1); discriminate.
  - destruct (float_of s1); [|discriminate]; destruct (float_of s2); discriminate.
  - destruct (float_of s1) eqn:E1; cbn [bind]; [|discriminate]. destruct (float_of s2) eqn:E2; cbn [bind]; [|discriminate]. destruct (float_of s3) eqn:E3; cbn [bind]; [|discriminate]. intros E. injection E as <-. exists s1, s2, s3, rest. auto.
Qed.

Lemma coords_ok lines fs : lines <> [] -> Forall2 (reads_coord float_of) lines fs -> get_kpt_coords_A float_of b1 b2 b3 lines = Ok (map cart fs).
Proof.
  intros Hn H. unfold get_kpt_coords_A, get_kpt_coords_frac. destruct lines as [|l r]; [congruence|]. assert (E : mapM (coord_of float_of) (l :: r) = Ok fs).
  { clear Hn. induction H as [|x f ls fs' Hx _ IH]; [reflexivity|]. cbn [mapM]. rewrite (coord_reads _ _ Hx). cbn [bind]. rewrite IH. reflexivity. }
  rewrite E. reflexivity.
Qed.

Lemma vsub_cart f g : vsub (cart g) (cart f) = comb b1 b2 b3 (vx g - vx f) (vy g - vy f) (vz g - vz f).
Proof. unfold cart. destruct b1 as [[? ?] ?], b2 as [[? ?] ?], b3 as [[? ?] ?], f as [[? ?] ?], g as [[? ?] ?]. vec_unfold. f_equal; [f_equal; ring|ring]. Qed.

Lemma path_ok lines fs : lines <> [] -> Forall2 (reads_coord float_of) lines fs ->
  exists out, get_distance_from_gamma_A float_of b1 b2 b3 lines = Ok out /\ List.length out = List.length lines /\ hd_error out = Some 0%R /\
  takes_steps out (fun j d => (jump_at lines j -> d = 0%R) /\ (~ jump_at lines j -> forall f g, nth_error fs j = Some f -> nth_error fs (S j) = Some g -> d = kdist b1 b2 b3 f g)).
Proof.
  intros Hn H. assert (Len := Forall2_length H). unfold get_distance_from_gamma_A, split_distances. rewrite (coords_ok lines fs Hn H). cbn [bind].
  set (nbr := distance_from_nbr (map cart fs)). set (l := cumsum_from 0 nbr). assert (Ll : List.length l = List.length lines).
  { unfold l, nbr, distance_from_nbr. rewrite cumsum_length. cbn [List.length]. rewrite diffs_length, map_length. destruct fs; [destruct lines; [congruence|discriminate]|cbn in *; lia]. }
  assert (Ln : List.length nbr = List.length l) by (unfold l; rewrite cumsum_length; reflexivity). rewrite Ln.
  set (js := jumps (hsp_indices lines)). assert (Hjs : forall x, In x js -> 0 < x < List.length l).
  { intros x I. destruct x as [|x]; [|split; [lia|]].
    - apply jumps_in in I; [|apply filter_fst_sorted]. destruct I as (_ & a & ? & _). discriminate.
    - apply jumps_hsp in I. destruct I as (_ & l2 & _ & E & _). rewrite Ll. apply nth_error_Some. congruence. }
  assert (Lpos : 0 < List.length l) by (rewrite Ll; destruct lines; [congruence|cbn; lia]).
  destruct (cut_steps l js 0) as (s & segs & E & Hs & Hf & Hh & L & St).
  { constructor; [apply jumps_sorted, filter_fst_sorted|]. apply Forall_forall. intros x I. apply Hjs. exact I. }
  { intros x I. apply Hjs. exact I. }
  { exact Lpos. }
  cbn [app] in E. rewrite E. destruct (join_ok segs Hf s Hs) as (r & Er & Sr & Lr & Hr). exists r. split; [exact Er|]. split; [lia|]. split.
  { rewrite Hr, Hh. unfold l, nbr, distance_from_nbr. cbn. f_equal. ring. }
  specialize (St js (fun x I => I) (fun x I _ => I)). rewrite <- Sr in St. intros j x y Hx Hy.
  assert (Jl : S j < List.length r) by (apply nth_error_Some; congruence). assert (V : nth j (steps r) 0%R = (y - x)%R). { rewrite steps_nth by exact Jl. rewrite (nth_error_nth _ _ _ Hx), (nth_error_nth _ _ _ Hy). reflexivity. }
  assert (V2 : nth j (steps r) 0%R = step_or_jump js l j).
  { rewrite St. rewrite (nth_indep _ 0%R (step_or_jump js l 0)) by (rewrite map_length, seq_length; lia). rewrite map_nth, seq_nth by lia. reflexivity. }
  rewrite <- V, V2. split.
  - intros Hj. apply step_jump. apply jumps_hsp. exact Hj.
  - intros Hj f g Ef Eg. rewrite step_plain by (intros Ij; apply Hj; apply jumps_hsp; exact Ij). unfold l. rewrite cumsum_step by lia.
    change (nth (S j) nbr 0%R) with (nth j (diffs (map cart fs)) 0%R). rewrite (diffs_nth _ j (cart f) (cart g)) by (rewrite nth_error_map; first [rewrite Ef | rewrite Eg]; reflexivity).
    rewrite vsub_cart. reflexivity.
Qed.

Lemma path_fails lines : (lines = [] \/ exists line, In line lines /\ forall f, ~ reads_coord float_of line f) -> exists e, get_distance_from_gamma_A float_of b1 b2 b3 lines = Err e.
Proof.
  intros H. unfold get_distance_from_gamma_A, split_distances, get_kpt_coords_A, get_kpt_coords_frac. destruct lines as [|l r]; [eexists; reflexivity|].
  destruct H as [H|(line & I & Hf)]; [discriminate|]. destruct (mapM (coord_of float_of) (l :: r)) as [fs|e] eqn:E; [exfalso|exists e; reflexivity].
  apply mapM_forall2 in E. apply In_nth_error in I. destruct I as [i I]. destruct (nth_error fs i) as [f|] eqn:Ef.
  - destruct (Forall2_nth E i line I) as (f' & _ & Ec). exact (Hf f' (coord_of_reads _ _ Ec)).
  - apply nth_error_None in Ef. rewrite <- (Forall2_length E) in Ef. assert (i < List.length (l :: r)) by (apply nth_error_Some; congruence). lia.
Qed.
Lemma coord_of_error line e : (forall t e, float_of t = Err e -> e = ValueError) -> coord_of float_of line = Err e -> e = ValueError.
Proof.
  intros Hf. unfold coord_of. destruct (mapM float_of (firstn 3 (split_ws line))) as [c|e'] eqn:E; cbn [bind].
  - destruct c as [|x [|y [|z [|w c]]]]; intros H; try congruence.
  - intros H. injection H as <-. revert E. generalize (firstn 3 (split_ws line)). clear line. intros l. induction l as [|t l IH]; cbn [mapM]; [discriminate|].
    destruct (float_of t) as [x|e0] eqn:Et; cbn [bind]; [|intros H; injection H as <-; exact (Hf _ _ Et)]. destruct (mapM float_of l) as [r|e1]; cbn [bind]; [discriminate|]. intros H. injection H as <-. apply IH. reflexivity.
Qed.
Lemma path_fails_value lines : (forall t e, float_of t = Err e -> e = ValueError) -> (lines = [] \/ exists line, In line lines /\ forall f, ~ reads_coord float_of line f) ->
  get_distance_from_gamma_A float_of b1 b2 b3 lines = Err ValueError.
Proof.
  intros Hf H. destruct (path_fails lines H) as (e & E). rewrite E. f_equal. revert E. clear H.
  unfold get_distance_from_gamma_A, split_distances, get_kpt_coords_A, get_kpt_coords_frac. destruct lines as [|l r]; [intros E; cbn in E; congruence|].
  destruct (mapM (coord_of float_of) (l :: r)) as [fs|e'] eqn:E; cbn [bind].
  - intros H. exfalso. assert (F := mapM_forall2 _ _ _ E).
    assert (F' : Forall2 (reads_coord float_of) (l :: r) fs). { clear -F. induction F; constructor; [apply coord_of_reads; assumption|assumption]. }
    destruct (path_ok (l :: r) fs) as (out & Eo & _); [discriminate|exact F'|].
    unfold get_distance_from_gamma_A, split_distances, get_kpt_coords_A, get_kpt_coords_frac in Eo. rewrite E in Eo. cbn [bind] in Eo. congruence.
  - intros H. injection H as <-. revert E. generalize (l :: r). clear l r. intros ls. induction ls as [|x ls IH]; cbn [mapM]; [discriminate|].
    destruct (coord_of float_of x) as [v|e0] eqn:Et; cbn [bind]; [|intros H; injection H as <-; exact (coord_of_error x e0 Hf Et)]. destruct (mapM (coord_of float_of) ls) as [rr|e1]; cbn [bind]; [discriminate|]. intros H. injection H as <-. apply IH. reflexivity.
Qed.
End Path.

Lemma kmesh_never : forall Structure (read_pwmat read_other : string -> result Structure) format path,
  kmesh_construct Structure read_pwmat read_other format path = Err TypeError /\
  inkpt_structure Structure read_pwmat read_other path = read_pwmat path.
Proof. intros. split; reflexivity. Qed.
