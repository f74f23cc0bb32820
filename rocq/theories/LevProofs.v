(** Proofs about the combinations of level.h. *)
From Coq Require Import List Arith Lia Permutation Bool.
From Verif Require Import Base LevModel LevSpec.
Import ListNotations.

Lemma level_eq p : get_level (fst p) (snd p) = moment_level p.
Proof. reflexivity. Qed.
Lemma total_app a b : total_level (a ++ b) = total_level a + total_level b.
Proof. unfold total_level. rewrite map_app, list_sum_app. reflexivity. Qed.
Lemma total_length c : 2 * length c <= total_level c.
Proof. induction c as [|p c IH]; [cbn; lia|]. unfold total_level in *. cbn [map list_sum fold_right length]. change (fold_right plus 0 (map moment_level c)) with (list_sum (map moment_level c)). unfold moment_level at 1. lia. Qed.
Lemma total_cons p c : total_level (p :: c) = moment_level p + total_level c.
Proof. reflexivity. Qed.

(** ** The enumeration *)
Lemma count_M_spec fuel : forall cur m, m <= cur + 2 * fuel -> 2 * count_M fuel cur m + cur >= m /\ (count_M fuel cur m = 0 \/ 2 * count_M fuel cur m + cur < m + 2).
Proof.
  induction fuel as [|fuel IH]; intros cur m H; cbn [count_M]; [split; [lia|now left]|]. destruct (cur <? m) eqn:E; [apply Nat.ltb_lt in E|apply Nat.ltb_ge in E; split; [lia|now left]].
  destruct (IH (cur + 2) m ltac:(lia)) as [A B]. split; [lia|]. right. destruct B as [B|B]; [rewrite B in *; lia|lia].
Qed.
Lemma max_M_spec m k : k < get_max_num_M m <-> 2 * k < m.
Proof. unfold get_max_num_M. destruct (count_M_spec m 0 m ltac:(lia)) as [A B]. lia. Qed.

Lemma in_calc k m : forall level c0 c, In c (calc_redundant_combination k m level c0) <-> exists s, c = c0 ++ s /\ length s = k /\ level + total_level s <= m.
Proof.
  induction k as [|k IH]; intros level c0 c; cbn [calc_redundant_combination].
  - destruct (level <=? m) eqn:E; [apply Nat.leb_le in E|apply Nat.leb_gt in E].
    + cbn. split; [intros [<-|[]]; exists []; rewrite app_nil_r; unfold total_level; cbn [map length]; repeat split; cbn; lia|]. intros (s & -> & L & _). destruct s; [|discriminate]. rewrite app_nil_r. now left.
    + cbn. split; [intros []|]. intros (s & -> & L & T). lia.
  - rewrite in_flat_map. split.
    + intros (mu & _ & I). rewrite in_flat_map in I. destruct I as (nu & _ & I). cbv zeta in I. destruct (level + get_level mu nu <=? m) eqn:E; [|destruct I]. apply IH in I. destruct I as (s & -> & L & T).
      exists ((mu, nu) :: s). rewrite <- app_assoc. split; [reflexivity|]. split; [cbn; lia|]. rewrite total_cons. unfold moment_level, get_level in *. cbn [fst snd] in *. lia.
    + intros (s & -> & L & T). destruct s as [|[mu nu] s]; [discriminate|]. rewrite total_cons in T. unfold moment_level in T. cbn [fst snd] in T.
      exists mu. split; [apply in_seq; lia|]. rewrite in_flat_map. exists nu. split; [apply in_seq; lia|]. cbv zeta. unfold get_level at 1. replace (level + (2 + 4 * mu + nu) <=? m) with true by (symmetry; apply Nat.leb_le; lia).
      apply IH. exists s. rewrite <- app_assoc. split; [reflexivity|]. split; [cbn in L; lia|]. unfold get_level. lia.
Qed.

Lemma NoDup_flat_map {A B} (f : A -> list B) l : NoDup l -> (forall a, In a l -> NoDup (f a)) ->
  (forall a a' b, In a l -> In a' l -> In b (f a) -> In b (f a') -> a = a') -> NoDup (flat_map f l).
Proof.
  intros N. induction N as [|a l Na N IH]; intros F D; [constructor|]. cbn. assert (X : forall l1 l2 : list B, NoDup l1 -> NoDup l2 -> (forall b, In b l1 -> In b l2 -> False) -> NoDup (l1 ++ l2)).
  { intros l1 l2 N1 N2. induction N1 as [|b l1 Nb N1 IH1]; intros H; [exact N2|]. cbn. constructor; [rewrite in_app_iff; intros [I|I]; [contradiction|apply (H b); [now left|exact I]]|]. apply IH1. intros x I1 I2. apply (H x); [now right|exact I2]. }
  apply X; [apply F; now left|apply IH; [intros; apply F; now right|intros; eapply D; eauto; now right]|].
  intros b I1 I2. apply in_flat_map in I2. destruct I2 as (a' & I & I2). assert (a = a') by (apply (D a a' b); [now left|now right|exact I1|exact I2]). subst. contradiction.
Qed.
Lemma calc_nodup k m : forall level c0, NoDup (calc_redundant_combination k m level c0).
Proof.
  induction k as [|k IH]; intros level c0; cbn [calc_redundant_combination].
  - destruct (level <=? m); repeat constructor; auto.
  - apply NoDup_flat_map; [apply seq_NoDup| |].
    + intros mu _. apply NoDup_flat_map; [apply seq_NoDup| |].
      * intros nu _. cbv zeta. destruct (_ <=? m); [apply IH|constructor].
      * intros nu nu' c _ _ I I'. cbv zeta in *. destruct (level + get_level mu nu <=? m); [|destruct I]. destruct (level + get_level mu nu' <=? m); [|destruct I'].
        apply in_calc in I, I'. destruct I as (s & -> & _), I' as (s' & E & _). rewrite <- !app_assoc in E. apply app_inv_head in E. cbn in E. congruence.
    + intros mu mu' c _ _ I I'. apply in_flat_map in I, I'. destruct I as (nu & _ & I), I' as (nu' & _ & I'). cbv zeta in *. destruct (level + get_level mu nu <=? m); [|destruct I]. destruct (level + get_level mu' nu' <=? m); [|destruct I'].
      apply in_calc in I, I'. destruct I as (s & -> & _), I' as (s' & E & _). rewrite <- !app_assoc in E. apply app_inv_head in E. cbn in E. congruence.
Qed.
Lemma enumeration m : NoDup (calc_redundant_combinations m) /\ forall c, In c (calc_redundant_combinations m) <-> total_level c <= m /\ 2 * length c <> m.
Proof.
  split.
  - unfold calc_redundant_combinations. apply NoDup_flat_map; [apply seq_NoDup|intros; apply calc_nodup|]. intros a a' c _ _ I I'. apply in_calc in I, I'. destruct I as (s & -> & L & _), I' as (s' & E & L' & _). cbn in E. subst. reflexivity.
  - intros c. unfold calc_redundant_combinations. rewrite in_flat_map. split.
    + intros (k & K & I). apply in_seq in K. apply in_calc in I. destruct I as (s & -> & L & T). cbn [app]. assert (k < get_max_num_M m) by lia. apply max_M_spec in H. lia.
    + intros (T & N). exists (length c). assert (X := total_length c). split; [apply in_seq; assert (length c < get_max_num_M m) by (apply max_M_spec; lia); lia|]. apply in_calc. exists c. repeat split. exact T.
Qed.
Lemma missing m c : total_level c <= m -> (~ In c (calc_redundant_combinations m) <-> Nat.Even m /\ c = repeat (0, 0) (m / 2)).
Proof.
  intros T. rewrite (proj2 (enumeration m)). assert (X := total_length c). split.
  - intros H. assert (E : 2 * length c = m) by lia. split; [exists (length c); lia|]. assert (m / 2 = length c) as -> by (rewrite <- E, Nat.mul_comm, Nat.div_mul; lia).
    assert (total_level c = 2 * length c) as Y by lia. clear - Y. induction c as [|p c IH]; [reflexivity|]. assert (X := total_length c). rewrite total_cons in Y. unfold moment_level in Y. cbn [length] in Y. destruct p as [a b]. cbn [fst snd] in Y.
    cbn [length repeat]. f_equal; [f_equal; lia|]. apply IH. lia.
  - intros ((k & ->) & ->) [_ H]. apply H. rewrite repeat_length. f_equal. rewrite Nat.mul_comm, Nat.div_mul; lia.
Qed.

(** ** Removing duplicates *)
Lemma mapM_map {A B} (f : A -> result B) g l : (forall a, In a l -> f a = Ok (g a)) -> mapM f l = Ok (map g l).
Proof. induction l as [|a l IH]; intros H; [reflexivity|]. cbn. rewrite (H a) by now left. cbn. rewrite IH by (intros; apply H; now right). reflexivity. Qed.
Lemma get_at {A} (l : list A) i d : i < length l -> get l i = Ok (nth i l d).
Proof. intros H. unfold get. rewrite (nth_error_nth' l d) by exact H. reflexivity. Qed.
Lemma copies_suffix : forall (c : comb) (w : comb) k, skipn k w = c -> c <> [] -> length c = length w - k ->
  concat (map (fun jj => if moment_level (nth jj w (0, 0)) <=? moment_level (nth (jj + 1) w (0, 0)) then [w] else []) (seq k (length c - 1))) = repeat w (ascents c).
Proof.
  induction c as [|p c IH]; intros w k E N L; [contradiction|]. destruct c as [|q c]; [reflexivity|].
  assert (Ek : nth k w (0, 0) = p /\ nth (k + 1) w (0, 0) = q).
  { assert (forall i, nth (k + i) w (0, 0) = nth i (skipn k w) (0, 0)) as X by (intros i; clear; revert w; induction k as [|k IHk]; intros w; [reflexivity|]; destruct w; [destruct i; reflexivity|]; cbn; apply IHk).
    rewrite <- (Nat.add_0_r k) at 1. rewrite !X, E. split; reflexivity. }
  destruct Ek as [E1 E2]. cbn [length]. replace (S (S (length c)) - 1) with (S (length c)) by lia. cbn [seq map concat]. rewrite E1, E2.
  assert (I : skipn (S k) w = q :: c).
  { clear - E. revert k E. induction w as [|x w IHw]; intros [|k] E; try discriminate; cbn in *; [congruence|]. apply (IHw k E). }
  specialize (IH w (S k) I ltac:(discriminate) ltac:(cbn in *; lia)). replace (length (q :: c) - 1) with (length c) in IH by (cbn; lia). rewrite IH.
  cbn [ascents]. destruct (moment_level p <=? moment_level q); reflexivity.
Qed.
Lemma keep_copies_ok c : c <> [] -> keep_copies c = Ok (repeat c (ascents c)).
Proof.
  intros N. unfold keep_copies. destruct c as [|p r]; [contradiction|]. set (c := p :: r) in *.
  rewrite (mapM_map _ (fun jj => if moment_level (nth jj c (0, 0)) <=? moment_level (nth (jj + 1) c (0, 0)) then [c] else [])).
  - cbn [bind]. f_equal. apply (copies_suffix c c 0); [reflexivity|exact N|lia].
  - intros jj I. apply in_seq in I. rewrite (get_at c jj (0, 0)) by lia. cbn [bind]. rewrite (get_at c (jj + 1) (0, 0)) by lia. reflexivity.
Qed.
Lemma remove_dup_ok l : ~ In [] l -> remove_duplicates l = Ok (flat_map (fun c => repeat c (ascents c)) l).
Proof.
  intros H. unfold remove_duplicates. rewrite (mapM_map _ (fun c => repeat c (ascents c))); [cbn; now rewrite flat_map_concat_map|]. intros c I. apply keep_copies_ok. intros ->. contradiction.
Qed.
Lemma remove_dup_bad l : In [] l -> remove_duplicates l = Err IndexError.
Proof.
  intros H. unfold remove_duplicates. assert (mapM keep_copies l = Err IndexError) as ->; [|reflexivity]. induction l as [|c l IH]; [destruct H|]. cbn [mapM]. destruct c as [|p r]; [reflexivity|]. destruct H as [H|H]; [discriminate|].
  rewrite keep_copies_ok by discriminate. cbn [bind]. rewrite IH by exact H. reflexivity.
Qed.

(** ** Contraction *)
Definition num (m : list (nat * nat)) (k : nat) : nat := match find (fun p => fst p =? k) m with Some p => snd p | None => 0 end.
Lemma num_increment m j k : num (increment m j) k = num m k + if j =? k then 1 else 0.
Proof.
  unfold num. induction m as [|[a n] m IH]; cbn [increment find fst].
  - cbn. destruct (j =? k) eqn:E; [reflexivity|]. reflexivity.
  - destruct (a =? j) eqn:A; [apply Nat.eqb_eq in A; subst|].
    + cbn [find fst]. destruct (j =? k) eqn:E; [reflexivity|]. lia.
    + cbn [find fst]. destruct (a =? k) eqn:E; [apply Nat.eqb_eq in E; subst; rewrite Nat.eqb_sym, A; cbn; lia|]. exact IH.
Qed.
Lemma keys_increment m j k : In k (map fst (increment m j)) <-> k = j \/ In k (map fst m).
Proof.
  induction m as [|[a n] m IH]; cbn; [intuition|]. destruct (a =? j) eqn:A; [apply Nat.eqb_eq in A; subst; cbn; intuition|]. cbn. rewrite IH. intuition.
Qed.
Lemma keys_nodup m j : NoDup (map fst m) -> NoDup (map fst (increment m j)).
Proof.
  induction m as [|[a n] m IH]; cbn; intros N; [repeat constructor; auto|]. inversion N; subst. destruct (a =? j) eqn:A; cbn; [constructor; assumption|]. constructor; [|now apply IH]. rewrite keys_increment. apply Nat.eqb_neq in A. intuition.
Qed.
Lemma num_in m : NoDup (map fst m) -> forall k n, In (k, n) m -> num m k = n.
Proof.
  unfold num. induction m as [|[a b] m IH]; intros N k n I; [destruct I|]. inversion N; subst. cbn [find fst]. destruct I as [I|I]; [injection I as -> ->; rewrite Nat.eqb_refl; reflexivity|].
  destruct (a =? k) eqn:E; [apply Nat.eqb_eq in E; subst; exfalso; apply H1; apply in_map_iff; exists (k, n); auto|]. now apply IH.
Qed.
Lemma counts l : forall m k, num (fold_left increment l m) k = num m k + count_occ Nat.eq_dec l k.
Proof.
  induction l as [|j l IH]; intros m k; [cbn; lia|]. cbn [fold_left count_occ]. rewrite IH, num_increment. destruct (Nat.eq_dec j k) as [->|N]; [rewrite Nat.eqb_refl; lia|]. apply Nat.eqb_neq in N. rewrite N. lia.
Qed.
Lemma counts_nodup l : forall m, NoDup (map fst m) -> NoDup (map fst (fold_left increment l m)).
Proof. induction l as [|j l IH]; intros m N; [exact N|]. cbn. apply IH. now apply keys_nodup. Qed.
Lemma even_mod n : (n mod 2 =? 0) = true <-> Nat.Even n.
Proof.
  rewrite Nat.eqb_eq. split; intros H; [exists (n / 2); assert (X := Nat.div_mod n 2 ltac:(lia)); lia|]. destruct H as (k & ->). rewrite Nat.mul_comm. apply Nat.mod_mul. lia.
Qed.
Lemma mark_iff c : mark_contraction c = true <-> pairs_up c.
Proof.
  unfold mark_contraction, pairs_up. set (m := fold_left increment (map snd c) []). assert (C : forall k, num m k = count_occ Nat.eq_dec (map snd c) k) by (intros k; unfold m; rewrite counts; reflexivity).
  assert (N : NoDup (map fst m)) by (unfold m; apply counts_nodup; constructor). rewrite forallb_forall. split.
  - intros H nu Z. rewrite <- C. unfold num. destruct (find (fun p => fst p =? nu) m) as [[k n]|] eqn:F; [|exists 0; reflexivity]. apply find_some in F. destruct F as [I E]. cbn in E. apply Nat.eqb_eq in E. subst k. cbn [snd].
    specialize (H _ I). cbn in H. apply Nat.eqb_neq in Z. rewrite Z in H. cbn in H. rewrite negb_involutive in H. now apply even_mod.
  - intros H [k n] I. cbn. destruct (k =? 0) eqn:Z; [reflexivity|]. apply Nat.eqb_neq in Z. specialize (H k Z). rewrite <- C, (num_in m N k n I) in H. apply even_mod in H. cbn in H. rewrite H. reflexivity.
Qed.

(** ** Multiplicities *)
Lemma times_app c a b : times c (a ++ b) = times c a + times c b.
Proof. apply count_occ_app. Qed.
Lemma times_repeat c d n : times c (repeat d n) = if comb_dec d c then n else 0.
Proof. unfold times. induction n as [|n IH]; [cbn; now destruct (comb_dec d c)|]. cbn. destruct (comb_dec d c); lia. Qed.
Lemma times_copies c l : times c (flat_map (fun d => repeat d (ascents d)) l) = times c l * ascents c.
Proof.
  induction l as [|d l IH]; [reflexivity|]. cbn [flat_map]. rewrite times_app, IH, times_repeat. unfold times. cbn [count_occ]. destruct (comb_dec d c) as [->|]; lia.
Qed.
Lemma times_filter c (p : comb -> bool) l : times c (filter p l) = if p c then times c l else 0.
Proof.
  unfold times. induction l as [|d l IH]; [cbn; now destruct (p c)|]. cbn [filter count_occ]. destruct (p d) eqn:E; cbn [count_occ]; destruct (comb_dec d c) as [->|]; rewrite IH; try rewrite E; try reflexivity.
Qed.
Lemma kept (l : list comb) : (In [] l -> combinations l true = Err IndexError) /\
  (~ In [] l -> exists out, combinations l true = Ok out /\
    forall c, (pairs_up c -> times c out = times c l * ascents c) /\ (~ pairs_up c -> times c out = 0)).
Proof.
  split; intros H; unfold combinations.
  - rewrite remove_dup_bad by exact H. reflexivity.
  - rewrite remove_dup_ok by exact H. cbn [bind]. eexists. split; [reflexivity|]. intros c. unfold remove_cannot_contract. rewrite times_filter, times_copies. split; intros P.
    + apply mark_iff in P. rewrite P. reflexivity.
    + destruct (mark_contraction c) eqn:E; [|reflexivity]. apply mark_iff in E. contradiction.
Qed.
Lemma untouched l : combinations l false = Ok l.
Proof. reflexivity. Qed.

(** ** Arranging *)
Lemma sum_level_eq c : sum_level c = total_level c.
Proof.
  unfold sum_level. assert (X : forall n, fold_left (fun s p => s + get_level (fst p) (snd p)) c n = n + total_level c); [|rewrite X; reflexivity].
  induction c as [|p c IH]; intros n; [cbn; lia|]. cbn [fold_left]. rewrite IH, total_cons. rewrite level_eq. lia.
Qed.
Lemma basis_ok l i j c d : nth_error l i = Some c -> nth_error l j = Some d -> exists b, sort_basis l i j = Ok b /\ (b = true <-> total_level c < total_level d).
Proof.
  intros Hc Hd. unfold sort_basis, get. rewrite Hc. cbn [bind]. rewrite Hd. cbn [bind]. eexists. split; [reflexivity|]. rewrite !sum_level_eq. apply Nat.ltb_lt.
Qed.
Lemma permuted (l : list comb) (indices : list nat) : Permutation indices (seq 0 (length l)) -> exists sorted : list comb, mapM (fun ii => bind (get indices ii) (get l)) (seq 0 (length l)) = Ok sorted /\ sorted = map (fun i => nth i l []) indices /\ Permutation sorted l.
Proof.
  intros P. assert (L : length indices = length l) by (rewrite (Permutation_length P), seq_length; reflexivity).
  exists (map (fun i => nth i l []) indices). split; [|split; [reflexivity|]].
  - rewrite (mapM_map _ (fun ii => nth (nth ii indices 0) l [])).
    + f_equal. rewrite <- L. clear. assert (X : forall (w : list nat) k, map (fun ii => nth (nth ii (repeat 0 k ++ w) 0) l []) (seq k (length w)) = map (fun i => nth i l []) w).
      { induction w as [|a w IH]; intros k; [reflexivity|]. cbn [length seq map]. f_equal; [rewrite app_nth2, repeat_length, Nat.sub_diag by (rewrite repeat_length; lia); reflexivity|].
        rewrite <- (IH (S k)). apply map_ext_in. intros ii I. apply in_seq in I. f_equal. rewrite !app_nth2 by (rewrite repeat_length; lia). rewrite !repeat_length. replace (ii - k) with (S (ii - S k)) by lia. reflexivity. }
      apply (X indices 0).
    + intros ii I. apply in_seq in I. rewrite (get_at indices ii 0) by lia. cbn [bind]. apply get_at. assert (In (nth ii indices 0) (seq 0 (length l))) as J by (apply (Permutation_in _ P), nth_In; lia). apply in_seq in J. lia.
  - apply Permutation_trans with (map (fun i => nth i l []) (seq 0 (length l))); [now apply Permutation_map|].
    assert (X : map (fun i => nth i l []) (seq 0 (length l)) = l); [|rewrite X; apply Permutation_refl]. clear. induction l as [|c l IH]; [reflexivity|]. cbn [length seq map]. f_equal. rewrite <- seq_shift, map_map. cbn [nth]. exact IH.
Qed.
Fixpoint nondecreasing (l : list comb) : Prop := match l with [] => True | c :: r => Forall (fun d => total_level c <= total_level d) r /\ nondecreasing r end.
Lemma nondecreasing_app a b : nondecreasing a -> nondecreasing b -> (forall c d, In c a -> In d b -> total_level c <= total_level d) -> nondecreasing (a ++ b).
Proof.
  induction a as [|x a IH]; intros A B H; [exact B|]. destruct A as [A1 A2]. cbn. split; [apply Forall_app; split; [exact A1|apply Forall_forall; intros d I; apply H; [now left|exact I]]|]. apply IH; [exact A2|exact B|]. intros; apply H; [now right|assumption].
Qed.
Lemma nondecreasing_repeat c n : nondecreasing (repeat c n).
Proof. induction n as [|n IH]; [exact I|]. cbn. split; [apply Forall_forall; intros d I; apply repeat_spec in I; subst; lia|exact IH]. Qed.
Lemma nondecreasing_copies l : nondecreasing l -> nondecreasing (flat_map (fun c => repeat c (ascents c)) l).
Proof.
  induction l as [|c l IH]; [auto|]. intros [A B]. cbn [flat_map]. apply nondecreasing_app; [apply nondecreasing_repeat|now apply IH|]. intros x d I J. apply repeat_spec in I. subst x. apply in_flat_map in J. destruct J as (y & Iy & J). apply repeat_spec in J. subst d.
  rewrite Forall_forall in A. now apply A.
Qed.
Lemma nondecreasing_filter p l : nondecreasing l -> nondecreasing (filter p l).
Proof.
  induction l as [|c l IH]; [auto|]. intros [A B]. cbn. destruct (p c); [|now apply IH]. cbn. split; [|now apply IH]. apply Forall_forall. intros d I. apply filter_In in I. rewrite Forall_forall in A. now apply A.
Qed.
Lemma nondecreasing_nth l : nondecreasing l <-> forall i j c d, i < j -> nth_error l i = Some c -> nth_error l j = Some d -> total_level c <= total_level d.
Proof.
  split.
  - intros N. induction l as [|x l IH]; intros i j c d L Hc Hd; [destruct i; discriminate|]. destruct N as [A B]. destruct j as [|j]; [lia|]. cbn in Hd. destruct i as [|i]; cbn in Hc.
    + injection Hc as <-. rewrite Forall_forall in A. apply A. eapply nth_error_In; eauto.
    + apply (IH B i j); auto. lia.
  - intros H. induction l as [|x l IH]; [exact I|]. split; [|apply IH; intros i j c d L Hc Hd; apply (H (S i) (S j)); auto; lia]. apply Forall_forall. intros d J. apply In_nth_error in J. destruct J as (j & J). apply (H 0 (S j)); auto. lia.
Qed.
Lemma arranged (l : list comb) indices : ~ In [] l -> arranges l indices -> exists out, arrange l indices = Ok out /\
  (forall i j c d, i < j -> nth_error out i = Some c -> nth_error out j = Some d -> total_level c <= total_level d) /\
  forall c, (pairs_up c -> times c out = times c l * ascents c) /\ (~ pairs_up c -> times c out = 0).
Proof.
  intros H [P S0]. destruct (permuted l indices P) as (sorted & E & Es & Ps). unfold arrange. rewrite E. cbn [bind].
  assert (H' : ~ In [] sorted) by (intros I; apply H; now apply (Permutation_in _ Ps)). destruct (kept sorted) as [_ K]. destruct (K H') as (out & Eo & T). exists out. split; [exact Eo|]. split.
  - apply nondecreasing_nth. unfold combinations in Eo. rewrite remove_dup_ok in Eo by exact H'. cbn [bind] in Eo. injection Eo as <-. apply nondecreasing_filter, nondecreasing_copies. apply nondecreasing_nth.
    intros i j c d L Hc Hd. subst sorted. rewrite nth_error_map in Hc, Hd. destruct (nth_error indices i) as [a|] eqn:Ea; [|discriminate]. destruct (nth_error indices j) as [b|] eqn:Eb; [|discriminate]. cbn in Hc, Hd. injection Hc as <-. injection Hd as <-.
    assert (Ia : a < length l) by (assert (In a (seq 0 (length l))) as J by (apply (Permutation_in _ P); eapply nth_error_In; eauto); apply in_seq in J; lia).
    assert (Ib : b < length l) by (assert (In b (seq 0 (length l))) as J by (apply (Permutation_in _ P); eapply nth_error_In; eauto); apply in_seq in J; lia).
    apply (S0 i j a b); auto; apply nth_error_nth'; assumption.
  - intros c. destruct (T c) as [T1 T2]. assert (times c sorted = times c l) as X; [|rewrite X in T1; auto]. unfold times. apply Permutation_count_occ. exact Ps.
Qed.
Lemma empty_listed m : 0 < m -> combinations (calc_redundant_combinations m) true = Err IndexError.
Proof. intros H. apply kept. apply enumeration. cbn. lia. Qed.

(** A strictly ordered way to read [ascents]. *)
Lemma ascents_single p : ascents [p] = 0.
Proof. reflexivity. Qed.
Lemma ascents_sorted c : (forall i p q, nth_error c i = Some p -> nth_error c (S i) = Some q -> moment_level p <= moment_level q) -> ascents c = length c - 1.
Proof.
  induction c as [|p c IH]; [reflexivity|]. destruct c as [|q c]; [reflexivity|]. intros H. cbn [ascents length]. assert (moment_level p <= moment_level q) as L by (apply (H 0); reflexivity). apply Nat.leb_le in L. rewrite L.
  cbn [ascents length] in IH. rewrite IH; [cbn; lia|]. intros i a b Ha Hb. apply (H (S i)); assumption.
Qed.
Lemma built_once_refuted : exists l out, combinations l true = Ok out /\ times [(0, 0); (0, 0); (0, 0)] l = 1 /\ times [(0, 0); (0, 0); (0, 0)] out = 2 /\ times [(0, 0)] l = 1 /\ pairs_up [(0, 0)] /\ times [(0, 0)] out = 0.
Proof.
  exists [[(0, 0)]; [(0, 0); (0, 0); (0, 0)]]. eexists. split; [reflexivity|]. repeat split; try reflexivity. intros nu N. exists 0. cbn. destruct nu; [contradiction|reflexivity].
Qed.
Lemma reordered_refuted : exists l out, combinations l true = Ok out /\ 1 <= times [(0, 0); (1, 0); (0, 0)] out /\ 1 <= times [(0, 0); (0, 0); (1, 0)] out.
Proof. exists [[(0, 0); (1, 0); (0, 0)]; [(0, 0); (0, 0); (1, 0)]]. eexists. split; [reflexivity|]. cbv. lia. Qed.
