From Verif Require Import Vec NbModel NbSpec NbMlffModel NbMlffSpec StructProofs TextProofs NbListProofs NbSearchProofs NbGeomProofs NbProofs NbDupProofs.
Open Scope Z_scope.

(** * A sort that keeps the contract exists *)
Section Insertion.
Variable lt : nat -> nat -> bool.
Fixpoint ins (x : nat) (l : list nat) : list nat :=
  match l with
  | [] => [x]
  | y :: r => if lt y x then y :: ins x r else x :: l
  end.
Definition isort (l : list nat) : list nat := fold_right ins [] l.
Lemma ins_perm x l : Permutation (x :: l) (ins x l).
Proof.
  induction l as [|y r IH]; cbn [ins]; [reflexivity|]. destruct (lt y x); [|reflexivity].
  rewrite perm_swap. constructor. exact IH.
Qed.
Lemma isort_perm l : Permutation l (isort l).
Proof. induction l as [|x r IH]; [reflexivity|]. cbn. etransitivity; [|apply ins_perm]. constructor. exact IH. Qed.
Inductive ordered : list nat -> Prop :=
| ord_nil : ordered []
| ord_cons x l : Forall (fun y => lt y x = false) l -> ordered l -> ordered (x :: l).
Hypothesis SW : strict_weak lt.
Lemma ins_ordered x l : ordered l -> ordered (ins x l).
Proof.
  destruct SW as [AS NT]. induction 1 as [|y l Hf Ho IH]; cbn [ins]; [repeat constructor|].
  destruct (lt y x) eqn:E.
  - constructor; [|exact IH]. apply (Permutation_Forall (ins_perm x l)). constructor; [apply AS, E|exact Hf].
  - constructor; [|constructor; assumption]. constructor; [exact E|]. eapply Forall_impl; [|exact Hf].
    cbn. intros z Hz. apply NT with y; assumption.
Qed.
Lemma isort_ordered l : ordered (isort l).
Proof. induction l as [|x r IH]; cbn; [constructor|]. apply ins_ordered, IH. Qed.
Lemma ordered_nth l : ordered l -> forall i j a b, (i < j)%nat -> nth_error l i = Some a -> nth_error l j = Some b -> lt b a = false.
Proof.
  induction 1 as [|x l Hf Ho IH]; intros i j a b Hij Ha Hb; [destruct i; discriminate|].
  destruct j as [|j]; [lia|]. cbn in Hb. destruct i as [|i]; cbn in Ha.
  - injection Ha as <-. rewrite Forall_forall in Hf. apply Hf. eapply nth_error_In, Hb.
  - eapply IH; [|exact Ha|exact Hb]. lia.
Qed.
End Insertion.

Lemma isort_contract : sort_contract isort.
Proof.
  intros lt l SW. split; [apply isort_perm|]. intros. eapply ordered_nth; [apply isort_ordered, SW| | |]; eassumption.
Qed.

Lemma by_distance_sw ds : strict_weak (by_distance ds).
Proof.
  unfold by_distance, Rltb. split.
  - intros i j. destruct (Rlt_dec _ _); [|discriminate]. destruct (Rlt_dec _ _); [lra|reflexivity].
  - intros i j k. repeat (destruct (Rlt_dec _ _); try discriminate); try reflexivity. lra.
Qed.

Lemma mapM_get_seq {A} (l : list A) idx : Forall (fun i => (i < length l)%nat) idx ->
  exists out, mapM (get l) idx = Ok out /\ Forall2 (fun i x => nth_error l i = Some x) idx out.
Proof.
  induction 1 as [|i r Hi Hr [out [E F]]]; [exists []; split; [reflexivity|constructor]|].
  cbn [mapM]. unfold get at 1. destruct (nth_error l i) as [x|] eqn:Ex; [|apply nth_error_None in Ex; lia].
  cbn [bind]. rewrite E. exists (x :: out). split; [reflexivity|]. constructor; assumption.
Qed.

Lemma Forall2_nth_perm {A} (l : list A) idx out : Forall2 (fun i x => nth_error l i = Some x) idx out ->
  Permutation (seq 0 (length l)) idx -> Permutation l out.
Proof.
  intros F P. destruct l as [|d l0] eqn:El.
  - cbn in P. apply Permutation_nil in P. subst idx. inversion F. constructor.
  - rewrite <- El in *. assert (E : out = map (fun i => nth i l d) idx).
    { clear P. induction F as [|i x r r' H F IH]; [reflexivity|]. cbn. rewrite <- IH. f_equal. symmetry. apply nth_error_nth. exact H. }
    rewrite E. rewrite <- (Permutation_map (fun i => nth i l d) P).
    assert (E2 : map (fun i => nth i l d) (seq 0 (length l)) = l).
    { apply nth_ext with (d := d) (d' := d); [rewrite map_length, seq_length; reflexivity|].
      intros k Hk. rewrite map_length, seq_length in Hk. rewrite (nth_indep _ d (nth 0 l d)) by (rewrite map_length, seq_length; exact Hk).
      rewrite (map_nth (fun i => nth i l d)). rewrite seq_nth by exact Hk. reflexivity. }
    rewrite E2. reflexivity.
Qed.

Lemma mapM_forall2 {A B} (f : A -> result B) l out : mapM f l = Ok out -> Forall2 (fun x y => f x = Ok y) l out.
Proof.
  revert out; induction l as [|x r IH]; intros out H; cbn [mapM] in H; [injection H as <-; constructor|].
  destruct (f x) as [y|] eqn:E; [|discriminate]. cbn [bind] in H. destruct (mapM f r) as [ys|] eqn:E2; [|discriminate].
  cbn [bind] in H. injection H as <-. constructor; [exact E|]. apply IH. reflexivity.
Qed.

Lemma mapM_total {A B} (f : A -> result B) l : (forall a, In a l -> exists b, f a = Ok b) -> exists out, mapM f l = Ok out.
Proof.
  induction l as [|a r IH]; intros H; [exists []; reflexivity|]. destruct (H a) as [b Hb]; [left; reflexivity|].
  destruct IH as [out Ho]; [intros; apply H; right; assumption|]. cbn [mapM]. rewrite Hb. cbn [bind]. rewrite Ho. eexists. reflexivity.
Qed.

Lemma sort_list_spec sort pos centre l : sort_contract sort -> Forall (fun m => 0 <= m < Z.of_nat (length pos)) l ->
  exists l', sort_list sort pos centre l = Ok l' /\ Permutation l l' /\ by_increasing_distance pos centre l'.
Proof.
  intros HC Hl. unfold sort_list.
  destruct (mapM_total (fun m => bind (arr_get pos m) (fun q => Ok (sqrt (dist2 q centre)))) l) as [ds Hds].
  { intros m Hm. rewrite Forall_forall in Hl. destruct (arr_get_ok pos m (Hl m Hm)) as [q ->]. eexists. reflexivity. }
  rewrite Hds. cbn [bind]. apply mapM_forall2 in Hds.
  destruct (HC (by_distance ds) (seq 0 (length l)) (by_distance_sw ds)) as [HP HO].
  set (idx := sort (by_distance ds) (seq 0 (length l))) in *.
  destruct (mapM_get_seq l idx) as [out [E F]].
  { apply (Permutation_Forall HP). apply Forall_forall. intros i Hi. apply in_seq in Hi. lia. }
  exists out. split; [exact E|]. split; [eapply Forall2_nth_perm; eassumption|].
  intros i j a b p q Hij Ha Hb Hp Hq.
  assert (Di : forall i a p, nth_error out i = Some a -> arr_get pos a = Ok p -> exists k, nth_error idx i = Some k /\ nth k ds 0%R = sqrt (dist2 p centre)).
  { clear - F Hds. intros i a p Ha Hp. destruct (Forall2_nth_r F i _ Ha) as [k [Hk Hx]]. exists k. split; [exact Hk|].
    destruct (Forall2_nth Hds k _ Hx) as [d [Hd Hv]]. cbn in Hv. rewrite Hp in Hv. cbn [bind] in Hv. injection Hv as <-.
    apply nth_error_nth. exact Hd. }
  destruct (Di i a p Ha Hp) as [ki [Ki Vi]]. destruct (Di j b q Hb Hq) as [kj [Kj Vj]].
  specialize (HO i j ki kj Hij Ki Kj). unfold by_distance, Rltb in HO. rewrite Vi, Vj in HO.
  destruct (Rlt_dec _ _) as [|N]; [discriminate|]. apply Rnot_lt_le in N.
  apply sqrt_le_0 in N; [exact N|unfold dist2; apply norm2_nonneg|unfold dist2; apply norm2_nonneg].
Qed.

(** * The longest list *)
Lemma max_len_spec lists : forall m, m <= max_len_from m lists /\ (forall l, In l lists -> Z.of_nat (length l) <= max_len_from m lists) /\
  (max_len_from m lists = m \/ exists l, In l lists /\ max_len_from m lists = Z.of_nat (length l)).
Proof.
  induction lists as [|l r IH]; intros m; cbn [max_len_from].
  - split; [lia|]. split; [intros l []|left; reflexivity].
  - destruct (Z.ltb_spec m (Z.of_nat (length l))) as [D|D];
      match goal with |- context [max_len_from ?x r] => destruct (IH x) as [H1 [H2 H3]]; set (v := max_len_from x r) in * end.
    + split; [lia|]. split.
      * intros l' [<-|Hl]; [lia|]. apply H2, Hl.
      * right. destruct H3 as [H3|[l' [Hl H3]]]; [exists l; split; [left; reflexivity|exact H3]|exists l'; split; [right; exact Hl|exact H3]].
    + split; [lia|]. split.
      * intros l' [<-|Hl]; [lia|]. apply H2, Hl.
      * destruct H3 as [H3|[l' [Hl H3]]]; [left; exact H3|right; exists l'; split; [right; exact Hl|exact H3]].
Qed.

(** * Writing rows *)
Lemma set_nth_app {A} (u : list A) y v x : set_nth (u ++ y :: v) (length u) x = Some (u ++ x :: v).
Proof. induction u as [|a u IH]; [reflexivity|]. cbn. rewrite IH. reflexivity. Qed.

Lemma arr_set_app {A} (u : list A) y v x at_ : at_ = Z.of_nat (length u) -> arr_set (u ++ y :: v) at_ x = Ok (u ++ x :: v).
Proof. intros ->. unfold arr_set. destruct (Z.ltb_spec (Z.of_nat (length u)) 0); [lia|]. rewrite Nat2Z.id, set_nth_app. reflexivity. Qed.

Lemma write_row_app {A} (row : list A) : forall u v w at_, at_ = Z.of_nat (length u) -> length v = length row ->
  write_row at_ row (u ++ v ++ w) = Ok (u ++ row ++ w).
Proof.
  induction row as [|x r IH]; intros u v w at_ Ha Hv; cbn [write_row].
  - destruct v; [reflexivity|discriminate].
  - destruct v as [|y v]; [discriminate|]. cbn [app]. rewrite arr_set_app by exact Ha. cbn [bind].
    replace (u ++ x :: v ++ w) with ((u ++ [x]) ++ v ++ w) by (rewrite <- app_assoc; reflexivity).
    rewrite IH; [rewrite <- app_assoc; reflexivity|rewrite app_length; cbn; lia|cbn in Hv; lia].
Qed.

Lemma write_rows_fit {A} (fill : A) w rows : Forall (fun r => (length r <= w)%nat) rows -> forall u ii, Z.of_nat (length u) = ii * Z.of_nat w ->
  write_rows ii (Z.of_nat w) rows (u ++ repeat fill (length rows * w)) = Ok (u ++ padded_rows w fill rows).
Proof.
  unfold padded_rows. induction 1 as [|r rows Hr Hrs IH]; intros u ii Hu; cbn [write_rows map concat length].
  - reflexivity.
  - replace (S (length rows) * w)%nat with (length r + ((w - length r) + length rows * w))%nat by lia.
    rewrite repeat_app. rewrite write_row_app by (try lia; apply repeat_length). cbn [bind].
    rewrite repeat_app. rewrite !app_assoc. rewrite <- (app_assoc u r). rewrite IH.
    + rewrite <- !app_assoc. reflexivity.
    + rewrite !app_length, repeat_length. lia.
Qed.

Lemma arr_set_len {A} (l : list A) i x l' : arr_set l i x = Ok l' -> length l' = length l.
Proof.
  intros H. assert (D : 0 <= i < Z.of_nat (length l) \/ ~ (0 <= i < Z.of_nat (length l))) by lia. destruct D as [D|D].
  - destruct (arr_set_spec l i x D) as [l'' [E [L _]]]. rewrite E in H. injection H as <-. exact L.
  - exfalso. unfold arr_set in H. destruct (Z.ltb_spec i 0); [discriminate|].
    assert (S : forall (l : list A) n, (length l <= n)%nat -> set_nth l n x = None).
    { clear. induction l as [|y r IH]; intros n Hn; [destruct n; reflexivity|]. destruct n; cbn in *; [lia|]. rewrite IH by lia. reflexivity. }
    rewrite S in H by lia. discriminate.
Qed.
Lemma arr_set_bad {A} (l : list A) i x : ~ (0 <= i < Z.of_nat (length l)) -> arr_set l i x = Err IndexError.
Proof.
  intros D. unfold arr_set. destruct (Z.ltb_spec i 0); [reflexivity|].
  assert (S : forall (l : list A) n, (length l <= n)%nat -> set_nth l n x = None).
  { clear. induction l as [|y r IH]; intros n Hn; [destruct n; reflexivity|]. destruct n; cbn in *; [lia|]. rewrite IH by lia. reflexivity. }
  rewrite S by lia. reflexivity.
Qed.
Lemma write_row_len {A} (row : list A) : forall at_ arr out, write_row at_ row arr = Ok out -> length out = length arr.
Proof.
  induction row as [|x r IH]; intros at_ arr out H; cbn [write_row] in H; [congruence|].
  destruct (arr_set arr at_ x) as [a|] eqn:E; [|discriminate]. cbn [bind] in H. apply IH in H. apply arr_set_len in E. lia.
Qed.
Lemma write_row_bad {A} (row : list A) : forall at_ arr, 0 <= at_ -> Z.of_nat (length arr) < at_ + Z.of_nat (length row) -> row <> [] ->
  write_row at_ row arr = Err IndexError.
Proof.
  induction row as [|x r IH]; intros at_ arr H0 Hl Hn; [contradiction|]. cbn [write_row length] in *.
  assert (D : at_ < Z.of_nat (length arr) \/ Z.of_nat (length arr) <= at_) by lia. destruct D as [D|D].
  - destruct (arr_set_spec arr at_ x) as [arr' [E [L _]]]; [lia|]. rewrite E. cbn [bind]. apply IH; [lia|lia|].
    intros ->. cbn in Hl. lia.
  - rewrite arr_set_bad by lia. reflexivity.
Qed.
(** A last row that is too long runs over the end. *)
Lemma write_rows_last_bad {A} w (rows : list (list A)) last : forall ii arr, 0 <= ii -> 0 <= w ->
  Z.of_nat (length arr) = (ii + Z.of_nat (length rows) + 1) * w -> w < Z.of_nat (length last) ->
  write_rows ii w (rows ++ [last]) arr = Err IndexError.
Proof.
  induction rows as [|r rows IH]; intros ii arr Hi Hw Hl Hlast; cbn [write_rows app].
  - cbn in Hl. assert (0 <= ii * w) by (apply Z.mul_nonneg_nonneg; lia). rewrite write_row_bad; [reflexivity|lia|lia|].
    intros ->. cbn in Hlast. lia.
  - destruct (write_row (ii * w) r arr) as [arr'|e] eqn:E; cbn [bind].
    + apply write_row_len in E. apply IH; [lia|lia| |exact Hlast]. rewrite E, Hl. cbn [length]. f_equal. lia.
    + (* an earlier row already fails, with the same error *)
      clear - E. revert E. generalize (ii * w). revert arr. induction r as [|x r IH]; intros arr k; cbn [write_row]; [discriminate|].
      destruct (arr_set arr k x) as [a|e'] eqn:Ea; cbn [bind]; [apply IH|]. unfold arr_set in Ea.
      destruct (k <? 0); [congruence|]. destruct (set_nth arr (Z.to_nat k) x); congruence.
Qed.
