(** Lemmas about the radial basis of mtpMRadial_de.h. *)
From Verif Require Import RDeriv HeapProofs RadSpec RadHeap SeModel SeProofs ChebModel ChebProofs RadDeModel RadDeSpec.
From Coq Require Import Lra.
Local Open Scope R_scope.
Local Open Scope list_scope.
Notation arr := (@arr R).
Notation mem := (memory R).

(** *** The switching function *)
Lemma de_switch_eq rc rs r : de_switch rc rs r = switch_result rc rs r. Proof. reflexivity. Qed.
Lemma de_switch_deriv_eq rc rs r : de_switch_deriv rc rs r = switch_deriv2r rc rs r. Proof. reflexivity. Qed.
Lemma fading_eq rc rs r : rs < rc -> fading rc rs r = de_switch rc rs r.
Proof.
  intros H. unfold fading, de_switch. assert (rc - rs <> 0) by lra.
  destruct (Rle_dec r rs) as [A|A], (Rlt_dec r rs) as [B|B]; try lra.
  - assert (r = rs) as -> by lra. destruct (Rlt_dec rs rc); [|lra]. replace ((rs - rs) / (rc - rs)) with 0 by (field; lra). ring.
  - destruct (Rle_dec rc r) as [C|C], (Rlt_dec r rc) as [D|D]; lra.
Qed.
Lemma fading_dl rc rs r : rs < rc -> derivable_pt_lim (fading rc rs) r (de_switch_deriv rc rs r).
Proof. intros H. apply (dl_ext (switch_result rc rs)); [intros t; symmetry; now apply fading_eq|]. now apply switch_dl. Qed.
Lemma fading_range rc rs r : rs < rc -> 0 <= fading rc rs r <= 1.
Proof.
  intros H. unfold fading. destruct (Rle_dec r rs); [lra|]. destruct (Rle_dec rc r); [lra|]. set (u := (r - rs) / (rc - rs)).
  assert (0 <= u <= 1) as Hu.
  { unfold u. split; [apply Rmult_le_pos; [lra|left; apply Rinv_0_lt_compat; lra]|]. apply (Rmult_le_reg_r (rc - rs)); [lra|]. unfold Rdiv. rewrite Rmult_assoc, Rinv_l by lra. lra. }
  clearbody u. assert (0 <= (1 - u) ^ 3) as A by (apply pow_le; lra). assert (0 <= 1 + 3 * u + 6 * u ^ 2) as B by nra. split; [now apply Rmult_le_pos|].
  assert ((1 - u) ^ 3 * (1 + 3 * u + 6 * u ^ 2) = 1 - u ^ 3 * (10 - 15 * u + 6 * u ^ 2)) as -> by ring. assert (0 <= u ^ 3) by (apply pow_le; lra).
  assert (0 <= 10 - 15 * u + 6 * u ^ 2) by nra. nra.
Qed.
Lemma product_dl rc rs n r : rs < rc ->
  derivable_pt_lim (fun t => fading rc rs t * T n (to_unit rc rs t)) r
    (de_switch rc rs r * (D n (to_unit rc rs r) * (2 / (rc - rs))) + de_switch_deriv rc rs r * T n (to_unit rc rs r)).
Proof.
  intros H. eapply dl_val; cycle 1; [apply dl_mult; [now apply fading_dl|apply T_unit_dl]|]. cbv beta. rewrite fading_eq by auto. ring.
Qed.

(** *** Filling one array that has values already *)
Definition upd (h : mem) (b : nat) (l : list R) : mem := replace h b (Some (map Some l)).
Lemma replace_same {A} (l : list A) b x : nth_error l b = Some x -> replace l b x = l.
Proof. revert b. induction l as [|y l IH]; intros [|b] E; cbn in *; try discriminate; [now injection E as ->|f_equal; auto]. Qed.
Lemma replace_twice {A} (l : list A) b x y : replace (replace l b x) b y = replace l b y.
Proof. revert b. induction l as [|z l IH]; intros [|b]; cbn; f_equal; auto. Qed.
Lemma replace_map {A B} (f : A -> B) l b x : replace (map f l) b (f x) = map f (replace l b x).
Proof. revert b. induction l as [|z l IH]; intros [|b]; cbn; f_equal; auto. Qed.
Lemma arr_lt h b l : arr h b l -> (b < length h)%nat.
Proof. unfold RadHeap.arr. intros E. apply nth_error_Some. congruence. Qed.
Lemma upd_same h b l : arr h b l -> upd h b l = h.
Proof. apply replace_same. Qed.
Lemma upd_arr h b l l' : arr h b l -> arr (upd h b l') b l'.
Proof. intros E. unfold RadHeap.arr, upd. apply nth_replace_same. now apply arr_lt in E. Qed.
Lemma upd_other h b l b' l' : b' <> b -> arr h b' l' -> arr (upd h b l) b' l'.
Proof. unfold RadHeap.arr, upd. intros D E. now rewrite nth_replace_other. Qed.
Lemma upd_upd h b l l' : upd (upd h b l) b l' = upd h b l'.
Proof. apply replace_twice. Qed.
Lemma write_arr h b l i v : arr h b l -> (i < length l)%nat -> write R h (At b) i v = HOk (upd h b (replace l i v)).
Proof.
  intros E L. unfold write, cells_at. rewrite E. cbn [hbind]. rewrite map_length. apply Nat.ltb_lt in L. rewrite L. unfold upd. now rewrite <- (replace_map Some).
Qed.
Definition mix (k : nat) (w l : list R) : list R := firstn k w ++ skipn k l.
Lemma mix_length k w l : length w = length l -> length (mix k w l) = length w.
Proof. intros E. unfold mix. rewrite app_length, firstn_length, skipn_length. lia. Qed.
Lemma mix_step k w l : length w = length l -> (k < length w)%nat -> replace (mix k w l) k (nth k w 0) = mix (S k) w l.
Proof.
  intros E L. unfold mix. destruct (skipn_cons_nth l k) as (x & ->); [lia|]. rewrite (replace_app' _ _ _ _ k) by (rewrite firstn_length; lia). rewrite (firstn_S_nth _ _ 0) by auto.
  now rewrite <- app_assoc.
Qed.
Lemma mix_nth k w l i : length w = length l -> (k <= length w)%nat -> (i < k)%nat -> nth i (mix k w l) 0 = nth i w 0.
Proof.
  intros E L H. unfold mix. rewrite app_nth1 by (rewrite firstn_length; lia). rewrite <- (firstn_skipn k w) at 2. now rewrite app_nth1 by (rewrite firstn_length; lia).
Qed.
Lemma by_degree_fold m cell h : by_degree (Z.of_nat m) cell h = hfold (fun h ii => cell ii h) (seq 0 (S m)) h.
Proof.
  unfold by_degree. destruct m as [|[|m]].
  - cbn. destruct (cell 0%nat h); reflexivity.
  - cbn. destruct (cell 0%nat h); cbn; [|reflexivity]. destruct (cell 1%nat x); reflexivity.
  - destruct (Z.eqb_spec (Z.of_nat (S (S m))) 0) as [E|_]; [lia|]. destruct (Z.eqb_spec (Z.of_nat (S (S m))) 1) as [E|_]; [lia|].
    replace (Z.to_nat (Z.of_nat (S (S m)) + 1) - 2)%nat with (S m) by lia. change (seq 0 (S (S (S m)))) with ([0; 1]%nat ++ seq 2 (S m)). rewrite hfold_app. cbn [hfold hbind].
    destruct (cell 0%nat h); cbn [hbind]; [|reflexivity]. destruct (cell 1%nat x); reflexivity.
Qed.
Lemma fill_one m cell h b l w : arr h b l -> length w = S m -> length l = S m ->
  (forall k, (k <= m)%nat -> cell k (upd h b (mix k w l)) = write R (upd h b (mix k w l)) (At b) k (nth k w 0)) ->
  by_degree (Z.of_nat m) cell h = HOk (upd h b w).
Proof.
  intros E Lw Ll C. rewrite by_degree_fold. enough (forall k, (k <= S m)%nat -> hfold (fun h ii => cell ii h) (seq 0 k) h = HOk (upd h b (mix k w l))) as H.
  - rewrite H by lia. unfold mix. rewrite <- Lw at 1. rewrite firstn_all, <- Ll, skipn_all, app_nil_r. reflexivity.
  - induction k as [|k IH]; intros L.
    + cbn [seq hfold]. unfold mix. cbn [firstn skipn app]. now rewrite upd_same.
    + rewrite seq_S, hfold_app, IH by lia. cbn [hbind hfold Nat.add]. rewrite C by lia. rewrite (write_arr _ _ (mix k w l)).
      * cbn [hbind]. rewrite upd_upd, mix_step; [reflexivity|lia|lia].
      * eapply upd_arr; eauto.
      * rewrite mix_length; lia.
Qed.

(** *** The four methods *)
Definition Tl (rc rs r : R) (m : nat) : list R := map (fun n => T n (to_unit rc rs r)) (seq 0 (S m)).
Definition Dl (rc rs r : R) (m : nat) : list R := map (fun n => D n (to_unit rc rs r) * (2 / (rc - rs))) (seq 0 (S m)).
Definition Vl (rc rs r : R) (m : nat) : list R := map (fun n => de_switch rc rs r * T n (to_unit rc rs r)) (seq 0 (S m)).
Definition Gl (rc rs r : R) (m : nat) : list R :=
  map (fun n => de_switch rc rs r * (D n (to_unit rc rs r) * (2 / (rc - rs))) + de_switch_deriv rc rs r * T n (to_unit rc rs r)) (seq 0 (S m)).
Lemma lens rc rs r m : length (Tl rc rs r m) = S m /\ length (Dl rc rs r m) = S m /\ length (Vl rc rs r m) = S m /\ length (Gl rc rs r m) = S m.
Proof. unfold Tl, Dl, Vl, Gl. now rewrite !map_length, seq_length. Qed.
Definition obj (rc rs : R) (m : nat) (r : R) (b1 b2 b3 b4 : nat) : radial :=
  {| d_rcut := rc; d_smooth := rs; d_hmju := Z.of_nat m; d_rji := r; d_cv := At b1; d_cd := At b2; d_rv := At b3; d_rd := At b4 |}.
Section Methods.
Variables (rc rs : R) (m : nat) (r : R) (b1 b2 b3 b4 : nat).
Notation o := (obj rc rs m r b1 b2 b3 b4).
Notation u := (to_unit rc rs r).
Lemma nth_seq_map (f : nat -> R) k n : (k < n)%nat -> nth k (map f (seq 0 n)) 0 = f k.
Proof. intros L. rewrite (nth_indep _ 0 (f 0%nat)) by (now rewrite map_length, seq_length). rewrite map_nth, seq_nth by auto. reflexivity. Qed.
Lemma cv_ok h l : arr h b1 l -> length l = S m -> calc_cv o h = HOk (upd h b1 (Tl rc rs r m)).
Proof.
  intros E L. pose proof (lens rc rs r m) as (L1 & _). unfold calc_cv. cbn [d_hmju d_cv obj]. apply (fill_one m _ h b1 l); auto. intros k Hk. cbv beta.
  assert (arr (upd h b1 (mix k (Tl rc rs r m) l)) b1 (mix k (Tl rc rs r m) l)) as A by (eapply upd_arr; eauto).
  assert (length (mix k (Tl rc rs r m) l) = S m) as Lm by (rewrite mix_length; lia).
  destruct k as [|[|k]].
  - unfold put_cell. f_equal; unfold Tl; rewrite nth_seq_map by lia; rewrite ?T_0; reflexivity.
  - unfold put_cell. f_equal; unfold Tl; rewrite nth_seq_map by lia; rewrite ?T_1; reflexivity.
  - rewrite !(read_arr _ _ _ _ 0 A) by lia. cbn [hbind]. unfold put_cell. f_equal. rewrite !mix_nth by lia. unfold Tl. rewrite !nth_seq_map by lia.
    rewrite T_SS. replace (S (S k) - 1)%nat with (S k) by lia. replace (S (S k) - 2)%nat with k by lia. reflexivity.
Qed.
Lemma cd_ok h l : b1 <> b2 -> arr h b1 (Tl rc rs r m) -> arr h b2 l -> length l = S m -> calc_cd o h = HOk (upd h b2 (Dl rc rs r m)).
Proof.
  intros N E1 E L. pose proof (lens rc rs r m) as (L1 & L2 & _). unfold calc_cd. cbn [d_hmju d_cv d_cd obj]. apply (fill_one m _ h b2 l); auto. intros k Hk. cbv beta.
  assert (arr (upd h b2 (mix k (Dl rc rs r m) l)) b2 (mix k (Dl rc rs r m) l)) as A by (eapply upd_arr; eauto).
  assert (arr (upd h b2 (mix k (Dl rc rs r m) l)) b1 (Tl rc rs r m)) as B by (now apply upd_other).
  assert (length (mix k (Dl rc rs r m) l) = S m) as Lm by (rewrite mix_length; lia).
  destruct k as [|[|k]].
  - unfold put_cell. f_equal. unfold Dl. rewrite nth_seq_map by lia. rewrite D_0. ring.
  - unfold put_cell. f_equal. unfold Dl. rewrite nth_seq_map by lia. rewrite D_1. unfold ksi_deriv. cbn [d_rcut d_smooth obj]. ring.
  - rewrite !(read_arr _ _ _ _ 0 A), !(read_arr _ _ _ _ 0 B) by lia. cbn [hbind]. unfold put_cell. f_equal. rewrite !mix_nth by lia. unfold Tl, Dl. rewrite !nth_seq_map by lia.
    rewrite D_SS. replace (S (S k) - 1)%nat with (S k) by lia. replace (S (S k) - 2)%nat with k by lia. unfold ksi_deriv, ksi. cbn [d_rcut d_smooth d_rji obj]. fold (to_unit rc rs r). ring.
Qed.
Lemma rv_ok h l : b1 <> b3 -> arr h b1 (Tl rc rs r m) -> arr h b3 l -> length l = S m -> calc_rv o h = HOk (upd h b3 (Vl rc rs r m)).
Proof.
  intros N E1 E L. pose proof (lens rc rs r m) as (L1 & _ & L3 & _). unfold calc_rv. cbn [d_hmju d_cv d_rv d_rcut d_smooth d_rji obj]. apply (fill_one m _ h b3 l); auto. intros k Hk. cbv beta.
  assert (arr (upd h b3 (mix k (Vl rc rs r m) l)) b1 (Tl rc rs r m)) as B by (now apply upd_other).
  rewrite !(read_arr _ _ _ _ 0 B) by lia. cbn [hbind]. unfold put_cell. f_equal. unfold Vl, Tl. now rewrite !nth_seq_map by lia.
Qed.
Lemma rd_ok h l : b1 <> b4 -> b2 <> b4 -> arr h b1 (Tl rc rs r m) -> arr h b2 (Dl rc rs r m) -> arr h b4 l -> length l = S m -> calc_rd o h = HOk (upd h b4 (Gl rc rs r m)).
Proof.
  intros N N2 E1 E2 E L. pose proof (lens rc rs r m) as (L1 & L2 & _ & L4). unfold calc_rd. cbn [d_hmju d_cv d_cd d_rd d_rcut d_smooth d_rji obj]. apply (fill_one m _ h b4 l); auto. intros k Hk. cbv beta.
  assert (arr (upd h b4 (mix k (Gl rc rs r m) l)) b1 (Tl rc rs r m)) as B by (now apply upd_other).
  assert (arr (upd h b4 (mix k (Gl rc rs r m) l)) b2 (Dl rc rs r m)) as C by (now apply upd_other).
  rewrite !(read_arr _ _ _ _ 0 B), !(read_arr _ _ _ _ 0 C) by lia. cbn [hbind]. unfold put_cell. f_equal. unfold Gl, Tl, Dl. now rewrite !nth_seq_map by lia.
Qed.
(** The object is as its constructor left it. *)
Definition settled (h : mem) : Prop :=
  (b1 <> b2 /\ b1 <> b3 /\ b1 <> b4 /\ b2 <> b4) /\
  arr h b1 (Tl rc rs r m) /\ arr h b2 (Dl rc rs r m) /\ arr h b3 (Vl rc rs r m) /\ arr h b4 (Gl rc rs r m).
Lemma calc_settled p h : settled h -> calc p o h = HOk h.
Proof.
  intros ((N12 & N13 & N14 & N24) & A1 & A2 & A3 & A4). destruct (lens rc rs r m) as (L1 & L2 & L3 & L4). destruct p; cbn [calc].
  - rewrite (cv_ok h _ A1 L1). now rewrite upd_same.
  - rewrite (cd_ok h _ N12 A1 A2 L2). now rewrite upd_same.
  - rewrite (rv_ok h _ N13 A1 A3 L3). now rewrite upd_same.
  - rewrite (rd_ok h _ N14 N24 A1 A2 A4 L4). now rewrite upd_same.
Qed.
Lemma glance_settled h : settled h -> glance o h = HOk (rc, rs, Z.of_nat m, r, Some [Tl rc rs r m; Dl rc rs r m; Vl rc rs r m; Gl rc rs r m]).
Proof.
  intros (_ & A1 & A2 & A3 & A4). destruct (lens rc rs r m) as (L1 & L2 & L3 & L4). unfold glance. cbn [d_cv d_cd d_rv d_rd d_hmju d_rcut d_smooth d_rji obj].
  replace (Z.to_nat (Z.of_nat m + 1)) with (S m) by lia. change [At b1; At b2; At b3; At b4] with (map At [b1; b2; b3; b4]).
  rewrite (read_arrays_ok _ _ _ [Tl rc rs r m; Dl rc rs r m; Vl rc rs r m; Gl rc rs r m]); [reflexivity|repeat constructor; auto|repeat constructor; auto].
Qed.
End Methods.
Lemma settled_frame rc rs m r b1 b2 b3 b4 h h' : (forall b, (b < length h)%nat -> nth_error h' b = nth_error h b) -> settled rc rs m r b1 b2 b3 b4 h -> settled rc rs m r b1 b2 b3 b4 h'.
Proof.
  intros F (N & A1 & A2 & A3 & A4). split; [exact N|]. unfold RadHeap.arr in *. repeat split; rewrite F; auto; apply nth_error_Some; congruence.
Qed.
