(** The operations on polynomials, one by one. *)
From Coq Require Import Permutation.
From Verif Require Import HeapProofs RadModel RadSpec RadHeap RadProg.
Local Open Scope nat_scope.
Local Open Scope list_scope.

Section Old.
Context {V : Type}.
Implicit Types h : memory V.
Lemma Forall2_length {A B} (P : A -> B -> Prop) l m : Forall2 P l m -> length l = length m.
Proof. induction 1; cbn; congruence. Qed.
(** Arrays that hold something already. *)
Definition old_items (bs : list nat) (ls olds : list (list V)) : list (item (V := V)) := map (fun x => (fst x, fst (snd x), map Some (snd (snd x)))) (combine bs (combine ls olds)).
Lemma old_blk bs : forall ls olds, length bs = length ls -> length bs = length olds -> map blk (old_items bs ls olds) = bs.
Proof.
  unfold old_items. induction bs as [|b bs IH]; intros [|l ls] [|o olds] E1 E2; try discriminate; [reflexivity|]. cbn. f_equal. apply IH; cbn in *; lia.
Qed.
Lemma old_fits n bs : forall ls olds, Forall (fun l => length l = n) ls -> Forall (fun l => length l = n) olds -> Forall (fits n) (old_items bs ls olds).
Proof.
  unfold old_items. induction bs as [|b bs IH]; intros [|l ls] [|o olds] F1 F2; cbn; try constructor; inversion F1; inversion F2; subst; auto.
  split; cbn; [auto|]. now rewrite map_length.
Qed.
Lemma old_start h bs : forall ls olds, Forall2 (arr h) bs olds -> filling h h (old_items bs ls olds) 0.
Proof.
  intros ls olds F. split; [reflexivity|]. split; [reflexivity|]. revert ls. induction F as [|b o bs olds E F IH]; intros [|l ls]; cbn; try constructor; auto.
  apply IH.
Qed.
Lemma old_arr h bs : forall ls olds, length bs = length ls -> length bs = length olds -> Forall (fun i => arr h (blk i) (want i)) (old_items bs ls olds) -> Forall2 (arr h) bs ls.
Proof.
  induction bs as [|b bs IH]; intros [|l ls] [|o olds] E1 E2 F; try discriminate; constructor; inversion F; subst; auto. eapply IH; eauto.
Qed.
(** A loop that fills arrays in place. *)
Lemma in_place n bs ls olds h (f : memory V -> nat -> hres (memory V)) : has h bs -> Forall2 (arr h) bs olds -> length bs = length ls ->
  Forall (fun l => length l = n) ls -> Forall (fun l => length l = n) olds ->
  (forall h1 k, k < n -> filling h h1 (old_items bs ls olds) k -> exists h2, f h1 k = HOk h2 /\ filling h h2 (old_items bs ls olds) (S k)) ->
  exists h', hfold f (seq 0 n) h = HOk h' /\ to h h' bs bs /\ Forall2 (arr h') bs ls.
Proof.
  intros H F L F1 F2 St. assert (length bs = length olds) as L2 by (eapply Forall2_length; eauto).
  destruct (filling_loop h (old_items bs ls olds) n f St h (old_start _ _ _ _ F)) as (h' & E & Fi). exists h'. split; auto. pose proof (old_blk bs ls olds L L2) as B. split.
  - rewrite <- B. eapply filling_to; eauto. now rewrite B.
  - apply (old_arr _ _ _ olds); auto. eapply filling_all; eauto. now apply old_fits.
Qed.
Lemma refill (v : V) n bs olds h : has h bs -> Forall2 (arr h) bs olds -> Forall (fun l => length l = n) olds ->
  exists h', fill V v n (map At bs) h = HOk h' /\ to h h' bs bs /\ Forall2 (arr h') bs (repeat (repeat v n) (length bs)).
Proof.
  intros H F F2. assert (Forall (fun l : list V => length l = n) (repeat (repeat v n) (length bs))) as F1.
  { apply Forall_forall. intros l Hl. apply repeat_spec in Hl. subst. apply repeat_length. }
  assert (length bs = length (repeat (repeat v n) (length bs))) as L1 by (now rewrite repeat_length).
  assert (length bs = length olds) as L2 by (eapply Forall2_length; eauto).
  apply (in_place n bs _ olds); auto. intros h1 k Hk Fi. assert (Forall (fits n) (old_items bs (repeat (repeat v n) (length bs)) olds)) as Ff by (now apply old_fits).
  apply (fill_step h _ n h1 k v); auto; [rewrite old_blk by auto; eapply has_nodup; eauto|]. intros h2 _. clear F F1 H L1 Ff Fi F2.
  revert olds L2. unfold old_items. induction bs as [|b bs IH]; intros [|o olds] L2; try discriminate; cbn; constructor; [|apply IH; cbn in *; lia].
  cbn. f_equal. symmetry. apply (repeat_spec n). apply nth_In. now rewrite repeat_length.
Qed.
Lemma arr_same h h' bs ls : Forall2 (arr h) bs ls -> (forall b, In b bs -> nth_error h' b = nth_error h b) -> Forall2 (arr h') bs ls.
Proof.
  induction 1 as [|b l bs ls E F IH]; intros Fr; constructor; [|apply IH; intros; apply Fr; now right]. unfold arr in *. rewrite Fr; auto. now left.
Qed.
Lemma has_app_r h A B : has h (A ++ B) -> has h B.
Proof. intros H. eapply has_part, has_perm; [exact H|apply Permutation_app_comm]. Qed.
Lemma nth_map_seq (f : nat -> V) n k d : k < n -> nth k (map f (seq 0 n)) d = f k.
Proof.
  intros L. rewrite (nth_indep _ d (f 0)) by (now rewrite map_length, seq_length). rewrite map_nth, seq_nth; auto.
Qed.
Lemma length_map_seq (f : nat -> V) n : length (map f (seq 0 n)) = n.
Proof. now rewrite map_length, seq_length. Qed.
(** Two arrays filled in one loop. *)
Lemma two_cells n (f g : nat -> V) b1 b2 (o1 o2 : list V) h0 h k :
  let its := old_items [b1; b2] [map f (seq 0 n); map g (seq 0 n)] [o1; o2] in
  b1 <> b2 -> length o1 = n -> length o2 = n -> k < n -> filling h0 h its k ->
  exists h1 h2, write V h (At b1) k (f k) = HOk h1 /\ (forall b, b <> b1 -> b <> b2 -> nth_error h1 b = nth_error h0 b) /\ write V h1 (At b2) k (g k) = HOk h2 /\ filling h0 h2 its (S k).
Proof.
  intros its D L1 L2 Hk (L & Fr & P).
  set (i1 := (b1, map f (seq 0 n), map Some o1) : item (V := V)). set (i2 := (b2, map g (seq 0 n), map Some o2) : item (V := V)).
  assert (its = [i1; i2]) as Ei by reflexivity. clearbody its. subst its.
  assert (fits n i1 /\ fits n i2) as (F1 & F2) by (unfold fits, i1, i2; cbn; rewrite !map_length, !seq_length; auto).
  pose proof (Forall_inv P) as P1. pose proof (Forall_inv (Forall_inv_tail P)) as P2. clear P.
  destruct (part_write h n i1 k (f k) P1 F1 Hk) as (h1 & W1 & P1' & L1' & O1). unfold blk at 1, want, i1 in W1. cbn [fst snd] in W1. rewrite nth_map_seq in W1 by auto.
  assert (part h1 k i2) as P2' by (eapply part_other; [exact P2|]; apply O1; cbn; auto).
  destruct (part_write h1 n i2 k (g k) P2' F2 Hk) as (h2 & W2 & P2'' & L2' & O2). unfold blk at 1, want, i2 in W2. cbn [fst snd] in W2. rewrite nth_map_seq in W2 by auto.
  exists h1, h2. split; auto. split; [|split; auto].
  - intros b D1 D2. rewrite O1, Fr; auto. cbn. intuition.
  - split; [congruence|]. split.
    + intros b Hb. cbn in Hb. rewrite O2, O1, Fr; auto; cbn; intuition.
    + repeat constructor; auto. eapply part_other; [exact P1'|]. apply O2. cbn. auto.
Qed.
End Old.

Section Numbers.
Context {V : Type}.
Variables zero one : V.
Variable vnext : V -> V -> V -> V.
Variable dnext : V -> V -> V -> V -> V.
Variable mul : V -> V -> V.
Variable scaled : V -> V -> V -> V.
Variable coeff : V -> V -> V.
Implicit Types h : memory V.
Notation value := (value V zero one vnext dnext).
Notation deriv := (deriv V zero one vnext dnext).
Notation rderiv := (rderiv V zero one vnext dnext mul scaled coeff).
Notation polynomials := (polynomials V zero one vnext dnext mul scaled coeff).
Notation with_arrays := (with_arrays V).
Notation arrays := (arrays V).

Lemma members_next u k : snd (members V zero one vnext dnext u k) = fst (members V zero one vnext dnext u (S k)).
Proof. cbn [members]. destruct (members V zero one vnext dnext u k) as [[v2 d2] [v1 d1]]. reflexivity. Qed.
Lemma value_next u k : value u (S (S k)) = vnext u (value u (S k)) (value u k) /\ deriv u (S (S k)) = dnext u (value u (S k)) (deriv u (S k)) (deriv u k).
Proof.
  unfold RadSpec.value, RadSpec.deriv. rewrite <- (members_next u (S k)). cbn [members]. destruct (members V zero one vnext dnext u k) as [[v2 d2] [v1 d1]]. split; reflexivity.
Qed.
(** *** One pass of the recursion *)
Lemma build_cell_ok n u c bv bd be (o0 o1 o2 : list V) h0 h k :
  let its := old_items [bv; bd; be] [map (value u) (seq 0 n); map (deriv u) (seq 0 n); map (fun k => mul (deriv u k) c) (seq 0 n)] [o0; o1; o2] in
  NoDup [bv; bd; be] -> length o0 = n -> length o1 = n -> length o2 = n -> k < n -> filling h0 h its k ->
  exists h', build_cell V zero one vnext dnext mul u c (At bv) (At bd) (At be) h k = HOk h' /\ filling h0 h' its (S k).
Proof.
  intros its N L0 L1 L2 Hk (L & Fr & P).
  set (iv := (bv, map (value u) (seq 0 n), map Some o0) : item (V := V)). set (id := (bd, map (deriv u) (seq 0 n), map Some o1) : item (V := V)).
  set (ie := (be, map (fun k => mul (deriv u k) c) (seq 0 n), map Some o2) : item (V := V)). assert (its = [iv; id; ie]) as Ei by reflexivity. clearbody its. subst its.
  assert (fits n iv /\ fits n id /\ fits n ie) as (Fv & Fd & Fe) by (unfold fits, iv, id, ie; cbn; rewrite !map_length, !seq_length; auto).
  pose proof (Forall_inv P) as Pv. pose proof (Forall_inv (Forall_inv_tail P)) as Pd. pose proof (Forall_inv (Forall_inv_tail (Forall_inv_tail P))) as Pe. clear P.
  assert (bv <> bd /\ bv <> be /\ bd <> be) as (Dvd & Dve & Dde).
  { apply NoDup_cons_iff in N. destruct N as (N1 & N2). apply NoDup_cons_iff in N2. destruct N2 as (N3 & _). cbn in N1, N3. repeat split; intros ->; tauto. }
  unfold build_cell.
  assert ((match k with 0 => HOk (one, zero) | 1 => HOk (u, one)
           | _ => hbind (read V h (At bv) (k - 1)) (fun v1 => hbind (read V h (At bv) (k - 2)) (fun v2 =>
                  hbind (read V h (At bd) (k - 1)) (fun d1 => hbind (read V h (At bd) (k - 2)) (fun d2 => HOk (vnext u v1 v2, dnext u v1 d1 d2))))) end) = HOk (value u k, deriv u k)) as ->.
  { destruct k as [|[|k]]; [reflexivity..|].
    pose proof (part_read h n iv (S (S k)) (S (S k) - 1) zero Pv Fv ltac:(lia) ltac:(lia)) as R1. pose proof (part_read h n iv (S (S k)) (S (S k) - 2) zero Pv Fv ltac:(lia) ltac:(lia)) as R2.
    pose proof (part_read h n id (S (S k)) (S (S k) - 1) zero Pd Fd ltac:(lia) ltac:(lia)) as R3. pose proof (part_read h n id (S (S k)) (S (S k) - 2) zero Pd Fd ltac:(lia) ltac:(lia)) as R4.
    unfold blk, want, iv, id in R1, R2, R3, R4. cbn [fst snd] in R1, R2, R3, R4. rewrite R1, R2, R3, R4. cbn [hbind]. rewrite !nth_map_seq by lia.
    replace (S (S k) - 1) with (S k) by lia. replace (S (S k) - 2) with k by lia. destruct (value_next u k) as (-> & ->). reflexivity. }
  cbn [hbind fst snd].
  destruct (part_write h n iv k zero Pv Fv Hk) as (h1 & W1 & Pv1 & L1' & O1). unfold blk at 1, want, iv in W1. cbn [fst snd] in W1. rewrite nth_map_seq in W1 by auto. rewrite W1. cbn [hbind].
  assert (part h1 k id) as Pd1 by (eapply part_other; [exact Pd|]; apply O1; cbn; auto). assert (part h1 k ie) as Pe1 by (eapply part_other; [exact Pe|]; apply O1; cbn; auto).
  destruct (part_write h1 n id k zero Pd1 Fd Hk) as (h2 & W2 & Pd2 & L2' & O2). unfold blk at 1, want, id in W2. cbn [fst snd] in W2. rewrite nth_map_seq in W2 by auto. rewrite W2. cbn [hbind].
  assert (part h2 (S k) iv) as Pv2 by (eapply part_other; [exact Pv1|]; apply O2; cbn; auto). assert (part h2 k ie) as Pe2 by (eapply part_other; [exact Pe1|]; apply O2; cbn; auto).
  pose proof (part_read h2 n id (S k) k zero Pd2 Fd ltac:(lia) ltac:(lia)) as R. unfold blk, want, id in R. cbn [fst snd] in R. rewrite nth_map_seq in R by auto. rewrite R. cbn [hbind].
  destruct (part_write h2 n ie k zero Pe2 Fe Hk) as (h3 & W3 & Pe3 & L3' & O3). unfold blk at 1, want, ie in W3. cbn [fst snd] in W3. rewrite nth_map_seq in W3 by auto. rewrite W3.
  exists h3. split; [reflexivity|]. split; [congruence|]. split.
  - intros b Hb. cbn in Hb. rewrite O3, O2, O1, Fr; auto; cbn; intuition.
  - repeat constructor; auto.
    + eapply part_other; [exact Pv2|]. apply O3. cbn. auto.
    + eapply part_other; [exact Pd2|]. apply O3. cbn. auto.
Qed.

(** *** What an object is in memory *)
Variable tab : nat -> V -> V -> V -> list (list V).
Hypothesis tab_len : forall n hi lo r, length (tab n hi lo r) = 3 /\ Forall (fun l => length l = n) (tab n hi lo r).
Definition content (n : nat) (hi lo : V) (q : option V) : list (list V) := match q with None => repeat (repeat zero n) 3 | Some r => tab n hi lo r end.
Lemma zeros_len m n : Forall (fun l : list V => length l = n) (repeat (repeat zero n) m).
Proof. apply Forall_forall. intros l Hl. apply repeat_spec in Hl. subst. apply repeat_length. Qed.
Lemma content_len n hi lo q : length (content n hi lo q) = 3 /\ Forall (fun l => length l = n) (content n hi lo q).
Proof. destruct q; cbn [content]; [apply tab_len|]. split; [reflexivity|apply zeros_len]. Qed.
Definition rep_full n hi lo q (o : basis V) h (bs : list nat) : Prop :=
  length bs = 3 /\ o = with_arrays n (hi, lo) hi lo (map At bs) /\ Forall2 (arr h) bs (content n hi lo q).
Definition rep_b (v : held V) (o : basis V) h (bs : list nat) : Prop :=
  match v with
  | Full _ n hi lo q => n <> 0 /\ rep_full n hi lo q o h bs
  | _ => bs = [] /\ exists inner, o = with_arrays 0 inner zero zero []
  end.
Lemma three {A} (l : list A) : length l = 3 -> exists a b c, l = [a; b; c].
Proof. destruct l as [|a [|b [|c [|]]]]; try discriminate. eauto. Qed.
Lemma with_arrays_arrays n inner hi lo (bs : list nat) : length bs = 3 -> arrays (with_arrays n inner hi lo (map At bs)) = map At bs.
Proof. intros L. destruct (three _ L) as (a & b & c & ->). reflexivity. Qed.
Lemma rep_b_blocks v o h bs : rep_b v o h bs -> length bs = match v with Full _ _ _ _ _ => 3 | _ => 0 end.
Proof. destruct v; cbn; [intros (-> & _); reflexivity..|]. intros (_ & L & _). exact L. Qed.
Lemma rep_full_frame n hi lo q o h h' bs : rep_full n hi lo q o h bs -> (forall b, In b bs -> nth_error h' b = nth_error h b) -> rep_full n hi lo q o h' bs.
Proof. intros (L & E & F) Fr. split; [exact L|]. split; [exact E|]. eapply arr_same; eauto. Qed.
Lemma rep_b_frame v o h h' bs : rep_b v o h bs -> (forall b, In b bs -> nth_error h' b = nth_error h b) -> rep_b v o h' bs.
Proof. destruct v; cbn; auto. intros (N & R) Fr. split; auto. eapply rep_full_frame; eauto. Qed.

Lemma make_ok n hi lo h : exists o h' bs, make_basis V zero n hi lo h = HOk (o, h') /\ to h h' [] bs /\ rep_full n hi lo None o h' bs.
Proof.
  unfold make_basis. rewrite alloc_all_eq. destruct (fill_new zero n 3 h) as (h' & E & T & F). rewrite E. cbn [hbind].
  eexists _, _, _. split; [reflexivity|]. split; [exact T|]. split; [apply seq_length|]. split; [reflexivity|exact F].
Qed.
Lemma destroy_full n hi lo q o h A : rep_full n hi lo q o h A -> has h A -> exists h', destroy_basis V o h = HOk h' /\ to h h' A [].
Proof. intros (L & -> & F) H. unfold destroy_basis. rewrite with_arrays_arrays by auto. now apply release_all_ok. Qed.
Lemma destroy_ok v o h A : rep_b v o h A -> has h A -> exists h', destroy_basis V o h = HOk h' /\ to h h' A [].
Proof.
  destruct v as [| |n hi lo q]; cbn [rep_b].
  1,2: intros (-> & inner & ->) _; exists h; split; [reflexivity|apply to_refl].
  intros (_ & R) H. eapply destroy_full; eauto.
Qed.
(** The copies: new arrays. *)
Lemma copies_ok n inner hi lo q (bs : list nat) h : length bs = 3 -> Forall2 (arr h) bs (content n hi lo q) ->
  exists h' cs, (let '(ps, h) := alloc_all V 3 n h in hbind (copy_cells V n ps (map At bs) h) (fun h => HOk (with_arrays n inner hi lo ps, h))) = HOk (with_arrays n inner hi lo (map At cs), h') /\
  length cs = 3 /\ to h h' [] cs /\ Forall2 (arr h') cs (content n hi lo q).
Proof.
  intros L F. rewrite alloc_all_eq. destruct (content_len n hi lo q) as (L3 & Ln). destruct (copy_new n bs _ h F Ln) as (h' & E & T & F'). rewrite L3 in *. rewrite E. cbn [hbind].
  exists h', (seq (length h) 3). split; [reflexivity|]. split; [apply seq_length|]. auto.
Qed.
Lemma copy_poly_ok n hi lo q o h B : rep_full n hi lo q o h B ->
  exists o' h' bs, copy_poly V o h = HOk (o', h') /\ to h h' [] bs /\ rep_full n hi lo q o' h' bs.
Proof.
  intros (L & -> & F). unfold copy_poly. rewrite with_arrays_arrays by auto. cbn [b_n b_inner b_hi b_lo RadModel.with_arrays].
  destruct (copies_ok n (hi, lo) hi lo q B h L F) as (h' & cs & E & Lc & T & F'). rewrite E. eexists _, _, _. split; [reflexivity|]. split; [exact T|]. split; auto.
Qed.
Lemma copy_rb_ok n hi lo q o h B : n <> 0 -> rep_full n hi lo q o h B ->
  exists o' h' bs, copy_rb V o h = HOk (o', h') /\ to h h' [] bs /\ rep_full n hi lo q o' h' bs.
Proof.
  intros N (L & -> & F). unfold copy_rb. rewrite with_arrays_arrays by auto. cbn [b_n b_inner b_hi b_lo RadModel.with_arrays]. apply Nat.eqb_neq in N. rewrite N.
  destruct (copies_ok n (hi, lo) hi lo q B h L F) as (h' & cs & E & Lc & T & F'). rewrite E. eexists _, _, _. split; [reflexivity|]. split; [exact T|]. split; auto.
Qed.
(** The first half of the assignments: what is there is given back. *)
Lemma drop_ok v t h A : rep_b v t h A -> has h A -> exists h', (if b_n V t =? 0 then HOk h else release_all V (arrays t) h) = HOk h' /\ to h h' A [].
Proof.
  destruct v as [| |n hi lo q]; cbn [rep_b].
  1,2: intros (-> & inner & ->) _; exists h; split; [reflexivity|apply to_refl].
  intros (N & L & -> & F) H. rewrite with_arrays_arrays by auto. cbn [b_n RadModel.with_arrays]. apply Nat.eqb_neq in N. rewrite N. now apply release_all_ok.
Qed.
Lemma after_drop h h' A B ls : has h (A ++ B) -> to h h' A [] -> Forall2 (arr h) B ls -> Forall2 (arr h') B ls /\ has h' B.
Proof. intros H T F. destruct (has_to_frame h h' A [] B H T) as (H' & Fr). split; auto. eapply arr_same; eauto. Qed.
Lemma assign_poly_ok v t n hi lo q o h A B : rep_b v t h A -> rep_full n hi lo q o h B -> has h (A ++ B) ->
  exists o' h' bs, assign_poly V zero t (Some o) h = HOk (o', h') /\ to h h' A bs /\ rep_full n hi lo q o' h' bs.
Proof.
  intros Rt (L & -> & F) H. unfold assign_poly. destruct (drop_ok _ _ _ _ Rt (has_part _ _ _ H)) as (h1 & -> & T1). cbn [hbind].
  destruct (after_drop _ _ _ _ _ H T1 F) as (F1 & _). destruct (copy_poly_ok n hi lo q _ h1 B (conj L (conj eq_refl F1))) as (o' & h' & bs & -> & T & R).
  eexists _, _, _. split; [reflexivity|]. split; [exact (to_trans _ _ _ _ _ _ T1 T)|exact R].
Qed.
Lemma assign_rb_ok v t n hi lo q o h A B : n <> 0 -> rep_b v t h A -> rep_full n hi lo q o h B -> has h (A ++ B) ->
  exists o' h' bs, assign_rb V zero t (Some o) h = HOk (o', h') /\ to h h' A bs /\ rep_full n hi lo q o' h' bs.
Proof.
  intros N Rt (L & -> & F) H. unfold assign_rb. destruct (drop_ok _ _ _ _ Rt (has_part _ _ _ H)) as (h1 & -> & T1). cbn [hbind].
  destruct (after_drop _ _ _ _ _ H T1 F) as (F1 & _). rewrite with_arrays_arrays by auto. cbn [b_n b_inner b_hi b_lo RadModel.with_arrays]. apply Nat.eqb_neq in N. rewrite N.
  destruct (copies_ok n (hi, lo) hi lo q B h1 L F1) as (h' & cs & E & Lc & T & F'). rewrite E. eexists _, _, _. split; [reflexivity|]. split; [exact (to_trans _ _ _ _ _ _ T1 T)|]. split; auto.
Qed.
Lemma move_assign_ok v t n hi lo q o h A B : rep_b v t h A -> rep_full n hi lo q o h B -> has h (A ++ B) ->
  exists o' w h' bs, move_assign_basis V zero t o h = HOk (o', w, h') /\ to h h' (A ++ B) bs /\ rep_full n hi lo q o' h' bs /\ rep_b (Empty V) w h' [].
Proof.
  intros Rt Ro H. unfold move_assign_basis. destruct (drop_ok _ _ _ _ Rt (has_part _ _ _ H)) as (h1 & -> & T1). cbn [hbind].
  destruct (has_to_frame h h1 A [] B H T1) as (_ & Fr).
  exists o, (with_arrays 0 (b_inner V o) zero zero []), h1, B. split; [reflexivity|]. split; [apply (to_frame _ _ A [] B T1)|].
  split; [eapply rep_full_frame; eauto|]. split; [reflexivity|]. eauto.
Qed.
Lemma look_ok k (fields : V -> V -> list V) n hi lo q (bs : list nat) ls h : n <> 0 -> Forall2 (arr h) bs ls -> Forall (fun l => length l = n) ls ->
  (ls = match q with None => repeat (repeat zero n) k | Some r => tab n hi lo r end) ->
  look V n (fields hi lo) (map At bs) h = shows V zero k fields tab (Some (Full V n hi lo q)).
Proof.
  intros N F Ln E. unfold look. apply Nat.eqb_neq in N. rewrite N. rewrite (read_arrays_ok _ _ _ _ F Ln). cbn [hbind shows]. rewrite E. now destruct q.
Qed.

(** *** Building *)
Lemma build_loop n hi lo r (bs : list nat) olds h : has h bs -> length bs = 3 -> Forall2 (arr h) bs olds -> Forall (fun l => length l = n) olds ->
  exists h', hfold (build_cell V zero one vnext dnext mul (scaled hi lo r) (coeff hi lo) (nth 0 (map At bs) Null) (nth 1 (map At bs) Null) (nth 2 (map At bs) Null)) (seq 0 n) h = HOk h' /\
  to h h' bs bs /\ Forall2 (arr h') bs (polynomials n hi lo r).
Proof.
  intros H L F Ln. destruct (three _ L) as (bv & bd & be & ->). assert (length olds = 3) as Lo by (symmetry; exact (Forall2_length _ _ _ F)).
  destruct (three _ Lo) as (o0 & o1 & o2 & ->). pose proof Ln as Ln'. inversion Ln as [|? ? L0 Ln1]; subst. inversion Ln1 as [|? ? L1 Ln2]; subst. inversion Ln2 as [|? ? L2 _]; subst.
  apply (in_place (length o0) [bv; bd; be] (polynomials (length o0) hi lo r) [o0; o1; o2]); auto.
  - repeat constructor; apply length_map_seq.
  - intros h1 k Hk Fi. apply (build_cell_ok (length o0)); auto. eapply has_nodup; eauto.
Qed.
End Numbers.
