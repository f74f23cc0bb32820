(** The properties of the gradients of the moment tensor descriptor. *)
From Verif Require Export MtpGradProofs.
From Verif Require Import DataModel RDeriv SeProofs SeSpec ChebProofs MtpValueProofs.
From Coq Require Import Lra Lia.
Local Open Scope R_scope.

(** *** Paths on which only some things move *)
Definition still_nbs (nbs : list (Z * vec)) : list (Z * (R -> vec)) := map (fun nb => (fst nb, fun _ : R => snd nb)) nbs.
Definition still_rows (rows : list (list R)) : list (list (R -> R)) := map (map (fun c _ => c)) rows.
Definition zero_rows (rows : list (list R)) : list (list R) := map (map (fun _ => 0)) rows.
Lemma still_nbs_at t nbs : nbs_at t (still_nbs nbs) = nbs.
Proof. unfold nbs_at, still_nbs. rewrite map_map. rewrite <- (map_id nbs) at 2. apply map_ext. intros [z r]. reflexivity. Qed.
Lemma still_rows_at t rows : rows_at t (still_rows rows) = rows.
Proof. unfold rows_at, still_rows. rewrite map_map. rewrite <- (map_id rows) at 2. apply map_ext. intros c. rewrite map_map, map_id. reflexivity. Qed.
Lemma moves_const x p : moves x (fun _ => p) (0, 0, 0).
Proof. repeat split; apply dl_const. Qed.
Lemma still_nbs_moves x nbs : Forall2 (fun nb v => moves x (snd nb) v) (still_nbs nbs) (repeat (0, 0, 0) (length nbs)).
Proof. induction nbs as [|nb nbs IH]; cbn; constructor; [apply moves_const|exact IH]. Qed.
Lemma still_rows_dl x rows : Forall2 (Forall2 (fun f d => derivable_pt_lim f x d)) (still_rows rows) (zero_rows rows).
Proof.
  induction rows as [|c rows IH]; cbn; constructor; [|exact IH]. induction c as [|a c IHc]; cbn; constructor; [apply dl_const|exact IHc].
Qed.
Lemma along_rows_zero rows l : along_rows rows (zero_rows l) = 0.
Proof.
  revert rows; induction l as [|d l IH]; intros [|c rows]; try reflexivity. unfold along_rows, sum_over in *. cbn [zero_rows map combine fold_right fst snd].
  unfold zero_rows in IH. rewrite IH. assert (Z : forall c, weighted c (map (fun _ => 0) d) = 0); [|rewrite Z; ring].
  clear. induction d as [|y d IHd]; intros [|a c]; cbn [map weighted]; try reflexivity. rewrite IHd. ring.
Qed.
Lemma along_zero_r n (l : list vec) : along l (repeat (0, 0, 0) n) = 0.
Proof.
  revert n; induction l as [|v l IH]; intros [|n]; try reflexivity. unfold along, sum_over in *. cbn [repeat combine map fold_right fst snd].
  rewrite IH. vec_unfold. ring.
Qed.
Lemma nudge_length {A} a (f : A -> A) l : length (nudge a f l) = length l.
Proof. revert a; induction l as [|x l IH]; intros [|a]; cbn; [reflexivity..|]. rewrite IH. reflexivity. Qed.
Lemma nudge_map {A B} (h : A -> B) a (f : A -> A) (g : B -> B) l : (forall x, h (f x) = g (h x)) -> map h (nudge a f l) = nudge a g (map h l).
Proof. intros H. revert a; induction l as [|x l IH]; intros [|a]; cbn; try reflexivity; [rewrite H; reflexivity|rewrite IH; reflexivity]. Qed.
Lemma nudge_id {A} a (f : A -> A) l d : f (nth a l d) = nth a l d -> nudge a f l = l.
Proof. revert a; induction l as [|x l IH]; intros [|a] H; cbn in *; try reflexivity; [rewrite H; reflexivity|rewrite (IH a H); reflexivity]. Qed.

(** The velocity of one moving coordinate. *)
Definition unit_vec (k : nat) : vec := with_coord k (0, 0, 0) 1.
Lemma along_unit grads a k : (a < length grads)%nat -> (k < 3)%nat ->
  along grads (nudge a (fun _ => unit_vec k) (repeat (0, 0, 0) (length grads))) = coord k (nth a grads (0, 0, 0)).
Proof.
  intros L K. revert a L; induction grads as [|g grads IH]; intros [|a] L; cbn [length] in L; try lia.
  - unfold along, sum_over. cbn [length repeat nudge combine map fold_right fst snd nth]. pose proof (along_zero_r (length grads) grads) as Z. unfold along, sum_over in Z. rewrite Z.
    destruct k as [|[|[|k]]]; [| | |lia]; unfold unit_vec, with_coord, coord; vec_unfold; ring.
  - unfold along, sum_over in *. cbn [length repeat nudge combine map fold_right fst snd nth]. rewrite IH by lia. vec_unfold. ring.
Qed.
Lemma apply_moves x q p v : moves x p v -> moves x (fun t => apply_map q (p t)) (apply_map q v).
Proof.
  intros (Hx & Hy & Hz). destruct q as [[[[a b] c] [[d e] f]] [[g h] i]].
  repeat split; unfold apply_map, vx, vy, vz, dot in *; cbn [fst snd] in *; repeat apply dl_plus; apply dl_scal; assumption.
Qed.
Lemma norm2_zero r : norm2 r = 0 -> r = (0, 0, 0).
Proof. destruct r as [[a b] c]. vec_unfold. intros H. assert (a = 0) by nra. assert (b = 0) by nra. assert (c = 0) by nra. subst. reflexivity. Qed.
(** The three turns. *)
Definition turn (k : nat) (t : R) : vec * vec * vec :=
  match k with
  | 0%nat => ((1, 0, 0), (0, cos t, - sin t), (0, sin t, cos t))
  | 1%nat => ((cos t, 0, sin t), (0, 1, 0), (- sin t, 0, cos t))
  | _ => ((cos t, - sin t, 0), (sin t, cos t, 0), (0, 0, 1))
  end.
Lemma turn_keeps k t : keeps_length (turn k t).
Proof.
  intros [[a b] c]. pose proof (sin2_cos2 t) as H. unfold Rsqr in H. unfold turn, apply_map.
  destruct k as [|[|k]]; vec_unfold; nra.
Qed.
Lemma turn_zero k r : apply_map (turn k 0) r = r.
Proof.
  destruct r as [[a b] c]. unfold turn, apply_map. rewrite ?cos_0, ?sin_0. destruct k as [|[|k]]; rewrite ?cos_0, ?sin_0; vec_unfold; f_equal; [f_equal|..|f_equal| |f_equal|]; ring.
Qed.
Lemma turn_moves k r : (k < 3)%nat -> moves 0 (fun t => apply_map (turn k t) r) (cross (unit_vec k) r).
Proof.
  intros Hk. assert (Dc : derivable_pt_lim cos 0 0). { eapply dl_val; [|apply derivable_pt_lim_cos]. rewrite sin_0. ring. }
  assert (Ds : derivable_pt_lim sin 0 1). { eapply dl_val; [|apply derivable_pt_lim_sin]. apply cos_0. }
  assert (K : forall (f : R -> R) a b c d, (forall t, f t = a * cos t + b * sin t + c) -> d = b -> derivable_pt_lim f 0 d).
  { intros f a b c d E ->. apply (dl_ext (fun t => a * cos t + b * sin t + c)); [intros t; symmetry; apply E|].
    eapply dl_val; cycle 1; [apply dl_plus; [apply dl_plus; [apply dl_scal, Dc|apply dl_scal, Ds]|apply dl_const]|]. ring. }
  destruct r as [[a b] c]. unfold unit_vec, with_coord, cross, vx, vy, vz. cbn [fst snd].
  destruct k as [|[|[|k]]]; [| | |lia]; repeat split; unfold turn, apply_map, dot, vx, vy, vz; cbn [fst snd].
  - apply (K _ 0 0 a); [intros t; ring|ring].
  - apply (K _ b (- c) 0); [intros t; ring|ring].
  - apply (K _ c b 0); [intros t; ring|ring].
  - apply (K _ a c 0); [intros t; ring|ring].
  - apply (K _ 0 0 b); [intros t; ring|ring].
  - apply (K _ c (- a) 0); [intros t; ring|ring].
  - apply (K _ a (- b) 0); [intros t; ring|ring].
  - apply (K _ b a 0); [intros t; ring|ring].
  - apply (K _ 0 0 c); [intros t; ring|ring].
Qed.
(** A rotated neighbourhood has rotated forces and the same gradient of the coefficients. *)
Lemma straight_moves r v : moves 0 (fun t => vadd r (vscale t v)) v.
Proof.
  destruct r as [[a b] c], v as [[d e] f].
  repeat split; unfold vadd, vscale, vx, vy, vz; cbn [fst snd]; eapply dl_val; cycle 1; try (apply dl_plus; [apply dl_const|apply (dl_mult (fun t => t) (fun _ => _)); [apply dl_id|apply dl_const]]); cbn beta; ring.
Qed.
Lemma orthogonal q : keeps_length q -> forall u v, dot (apply_map q u) (apply_map q v) = dot u v.
Proof.
  intros K u v. pose proof (K (vadd u v)) as A. pose proof (K u) as B. pose proof (K v) as C.
  assert (L : apply_map q (vadd u v) = vadd (apply_map q u) (apply_map q v)). { destruct q as [[q1 q2] q3]. unfold apply_map. cbn [fst snd]. vec_ring. }
  rewrite L in A. unfold norm2 in *. set (a := apply_map q u) in *. set (b := apply_map q v) in *.
  replace (dot (vadd a b) (vadd a b)) with (dot a a + 2 * dot a b + dot b b) in A by vec_ring.
  replace (dot (vadd u v) (vadd u v)) with (dot u u + 2 * dot u v + dot v v) in A by vec_ring. lra.
Qed.
Lemma onto q : keeps_length q -> forall w, (forall v, dot w (apply_map q v) = 0) -> w = (0, 0, 0).
Proof.
  intros K w H. pose proof (orthogonal q K) as O.
  set (c1 := apply_map q (1, 0, 0)) in *. set (c2 := apply_map q (0, 1, 0)) in *. set (c3 := apply_map q (0, 0, 1)) in *.
  assert (G1 : dot c1 c1 = 1) by (unfold c1; rewrite O; vec_unfold; ring). assert (G2 : dot c2 c2 = 1) by (unfold c2; rewrite O; vec_unfold; ring).
  assert (G3 : dot c3 c3 = 1) by (unfold c3; rewrite O; vec_unfold; ring). assert (G12 : dot c1 c2 = 0) by (unfold c1, c2; rewrite O; vec_unfold; ring).
  assert (G13 : dot c1 c3 = 0) by (unfold c1, c3; rewrite O; vec_unfold; ring). assert (G23 : dot c2 c3 = 0) by (unfold c2, c3; rewrite O; vec_unfold; ring).
  pose proof (H (1, 0, 0)) as W1. pose proof (H (0, 1, 0)) as W2. pose proof (H (0, 0, 1)) as W3. fold c1 in W1. fold c2 in W2. fold c3 in W3.
  clearbody c1 c2 c3. clear O H K.
  assert (D2 : det c1 c2 c3 * det c1 c2 c3 = 1).
  { transitivity (dot c1 c1 * (dot c2 c2 * dot c3 c3 - dot c2 c3 * dot c2 c3) - dot c1 c2 * (dot c1 c2 * dot c3 c3 - dot c2 c3 * dot c1 c3) + dot c1 c3 * (dot c1 c2 * dot c2 c3 - dot c2 c2 * dot c1 c3)).
    - clear. vec_ring.
    - rewrite G1, G2, G3, G12, G13, G23. ring. }
  assert (C : vscale (det c1 c2 c3) w = vadd (vadd (vscale (dot w c1) (cross c2 c3)) (vscale (dot w c2) (cross c3 c1))) (vscale (dot w c3) (cross c1 c2))) by (clear; vec_ring).
  rewrite W1, W2, W3 in C. assert (N : det c1 c2 c3 <> 0) by (intros E; rewrite E in D2; lra).
  set (d := det c1 c2 c3) in *. clearbody d. set (u1 := cross c2 c3) in *. set (u2 := cross c3 c1) in *. set (u3 := cross c1 c2) in *.
  destruct w as [[a b] c]. unfold vscale, vadd, vx, vy, vz in C. cbn [fst snd] in C. injection C as Ca Cb Cc.
  f_equal; [f_equal|]; apply (Rmult_eq_reg_l d); try exact N; lra.
Qed.

Lemma row_of_entries (a b : list (list R)) : map (@length R) a = map (@length R) b -> (forall k n, (k < length a)%nat -> (n < length (nth k a []))%nat -> entry2 k n a = entry2 k n b) -> a = b.
Proof.
  unfold entry2. revert b; induction a as [|r a IH]; intros [|s b] M H; cbn [map] in M; try discriminate; [reflexivity|]. injection M as Mr M. f_equal.
  - apply (nth_ext r s 0 0 Mr). intros n L. apply (H 0%nat n); cbn; lia.
  - apply IH; [exact M|]. intros k n Lk Ln. apply (H (S k) n); cbn; lia.
Qed.

Section Main.
Variables (size nmus nt : nat) (rc rs : R) (old : tables).
Hypothesis Hr : rs < rc.
Hypothesis Ho : sized size old.
Variables (coeffs : list (list R)) (types : list Z) (iidx : Z) (nbs : list (Z * vec)) (combs : list (list (nat * nat))) (G : list R).
Hypothesis Hf : fits size nmus nt coeffs types iidx nbs.
Hypothesis Hg : Forall (fun nb => regular rs (snd nb)) nbs.
Hypothesis Hc : Forall (complete nmus) combs.
Hypothesis Hl : length G = length combs.
Notation BACK c n := (atom_back size rc rs old (Z.of_nat nt) c types iidx n combs G).
Notation ROW c n := (descriptor_row size rc rs old (Z.of_nat nt) c types iidx n combs).

Lemma coord_path_moves x a k : Forall2 (fun nb v => moves x (snd nb) v)
  (nudge a (fun nb => (fst nb, fun t => with_coord k (snd nb 0) t)) (still_nbs nbs)) (nudge a (fun _ => unit_vec k) (repeat (0, 0, 0) (length nbs))).
Proof.
  clear. revert a; induction nbs as [|nb l IH]; intros [|a]; cbn; constructor.
  - cbn [snd]. unfold unit_vec. destruct k as [|[|k]]; repeat split; unfold with_coord, vx, vy, vz; cbn [fst snd]; try apply dl_const; apply dl_id.
  - apply still_nbs_moves.
  - apply moves_const.
  - apply IH.
Qed.
Lemma coord_path_at t a k : nbs_at t (nudge a (fun nb => (fst nb, fun t => with_coord k (snd nb 0) t)) (still_nbs nbs)) = shift_nb a k t nbs.
Proof.
  clear. unfold shift_nb. revert a; induction nbs as [|nb l IH]; intros [|a]; cbn; try reflexivity; f_equal; try (apply still_nbs_at); [destruct nb; reflexivity|apply IH].
Qed.
Lemma shift_self a k z r : nth_error nbs a = Some (z, r) -> shift_nb a k (coord k r) nbs = nbs.
Proof.
  intros N. unfold shift_nb. apply (nudge_id a _ nbs (z, r)). rewrite (nth_error_nth _ _ _ N). cbn [fst snd]. rewrite with_coord_self. reflexivity.
Qed.

Lemma back_ok : exists grads rows, BACK coeffs nbs = Ok (grads, rows) /\ length grads = length nbs /\ map (@length R) rows = map (@length R) coeffs.
Proof.
  destruct (atom_rate size nmus nt rc rs old types iidx (still_rows coeffs) (zero_rows coeffs) (still_nbs nbs) (repeat (0, 0, 0) (length nbs)) 0 Hr Ho) with (combs := combs) (G := G)
    as (grads & rows & f & E & _ & L & W & _); try assumption.
  - rewrite still_rows_at, still_nbs_at. exact Hf.
  - rewrite still_nbs_at. exact Hg.
  - apply still_nbs_moves.
  - apply still_rows_dl.
  - rewrite still_rows_at, still_nbs_at in E. exists grads, rows. split; [exact E|]. unfold still_nbs in L. rewrite map_length in L. split; [exact L|].
    rewrite W. unfold still_rows. rewrite map_map. apply map_ext. intros c. apply map_length.
Qed.

Lemma forces : exists grads rows, BACK coeffs nbs = Ok (grads, rows) /\ length grads = length nbs /\
  forall a k z r, nth_error nbs a = Some (z, r) -> (k < 3)%nat -> exists f, (forall t, ROW coeffs (shift_nb a k t nbs) = Ok (f t)) /\
  derivable_pt_lim (fun t => weighted G (f t)) (coord k r) (coord k (nth a grads (0, 0, 0))).
Proof.
  destruct back_ok as (grads & rows & E & L & _). exists grads, rows. split; [exact E|]. split; [exact L|].
  intros a k z r N K. assert (La : (a < length nbs)%nat) by (apply nth_error_Some; rewrite N; discriminate).
  pose proof (shift_self a k z r N) as Q0.
  destruct (atom_rate size nmus nt rc rs old types iidx (still_rows coeffs) (zero_rows coeffs)
    (nudge a (fun nb => (fst nb, fun t => with_coord k (snd nb 0) t)) (still_nbs nbs)) (nudge a (fun _ => unit_vec k) (repeat (0, 0, 0) (length nbs))) (coord k r) Hr Ho) with (combs := combs) (G := G)
    as (grads' & rows' & f & E' & V & _ & _ & D0); try assumption.
  - rewrite still_rows_at, coord_path_at, Q0. exact Hf.
  - rewrite coord_path_at, Q0. exact Hg.
  - apply coord_path_moves.
  - apply still_rows_dl.
  - rewrite still_rows_at, coord_path_at, Q0, E in E'. injection E' as <- <-.
    exists f. split; [intros t; rewrite <- V, still_rows_at, coord_path_at; reflexivity|].
    rewrite along_rows_zero, Rplus_0_r in D0. rewrite <- L, along_unit in D0 by lia. exact D0.
Qed.

(** Coefficients. *)
Lemma coeff_path_at t k n : rows_at t (nudge k (nudge n (fun _ => fun t => t)) (still_rows coeffs)) = set_coeff k n t coeffs.
Proof.
  unfold rows_at, set_coeff. rewrite (nudge_map (map (fun f : R -> R => f t)) k _ (nudge n (fun _ => t))).
  - f_equal. apply still_rows_at.
  - intros c. apply nudge_map. reflexivity.
Qed.
Lemma set_coeff_self k n c : nth_error coeffs k = Some c -> (n < length c)%nat -> set_coeff k n (nth n c 0) coeffs = coeffs.
Proof.
  intros N L. unfold set_coeff. apply (nudge_id k _ coeffs []). rewrite (nth_error_nth _ _ _ N). apply (nudge_id n _ c 0). reflexivity.
Qed.
Definition unit_rows (k n : nat) (rows : list (list R)) : list (list R) := nudge k (nudge n (fun _ => 1)) (zero_rows rows).
Lemma coeff_path_dl x k n : Forall2 (Forall2 (fun f d => derivable_pt_lim f x d)) (nudge k (nudge n (fun _ => fun t => t)) (still_rows coeffs)) (unit_rows k n coeffs).
Proof.
  clear. unfold unit_rows. revert k; induction coeffs as [|c l IH]; intros [|k]; cbn; constructor.
  - clear IH. revert n; induction c as [|a c IHc]; intros [|n]; cbn; constructor; try apply dl_id; try apply dl_const; [|apply IHc].
    clear. induction c as [|a c IHc]; cbn; constructor; [apply dl_const|exact IHc].
  - apply still_rows_dl.
  - clear. induction c as [|a c IHc]; cbn; constructor; [apply dl_const|exact IHc].
  - apply IH.
Qed.
Lemma along_unit_rows rows l k n : map (@length R) rows = map (@length R) l -> (k < length rows)%nat -> (n < length (nth k rows []))%nat ->
  along_rows rows (unit_rows k n l) = entry2 k n rows.
Proof.
  unfold unit_rows, entry2. revert l k; induction rows as [|c rows IH]; intros [|d l] k M L1 L2; cbn [map length] in *; try discriminate; try lia.
  injection M as Mc M. destruct k as [|k].
  - unfold along_rows, sum_over. cbn [zero_rows map nudge combine fold_right fst snd nth] in *. pose proof (along_rows_zero rows l) as Z. unfold along_rows, sum_over, zero_rows in Z. rewrite Z, Rplus_0_r.
    clear -L2 Mc. revert d n Mc L2; induction c as [|a c IHc]; intros [|b d] [|n] Mc L2; cbn [length] in *; try lia; cbn [map nudge weighted nth].
    + assert (Z : weighted c (map (fun _ => 0) d) = 0); [|rewrite Z; ring].
      clear. revert d; induction c as [|a c IHc]; intros [|b d]; cbn [map weighted]; try reflexivity. rewrite IHc. ring.
    + rewrite IHc by lia. ring.
  - unfold along_rows, sum_over in *. cbn [zero_rows map nudge combine fold_right fst snd nth] in *. unfold zero_rows in IH. rewrite IH by (try assumption; lia).
    assert (Z : weighted c (map (fun _ => 0) d) = 0); [|rewrite Z; ring].
    clear. revert d; induction c as [|a c IHc]; intros [|b d]; cbn [map weighted]; try reflexivity. rewrite IHc. ring.
Qed.
Lemma training : exists grads rows, BACK coeffs nbs = Ok (grads, rows) /\ map (@length R) rows = map (@length R) coeffs /\
  forall k n c, nth_error coeffs k = Some c -> (n < size)%nat -> exists f, (forall t, ROW (set_coeff k n t coeffs) nbs = Ok (f t)) /\
  derivable_pt_lim (fun t => weighted G (f t)) (nth n c 0) (entry2 k n rows).
Proof.
  destruct back_ok as (grads & rows & E & _ & W). exists grads, rows. split; [exact E|]. split; [exact W|].
  intros k n c N Ln. assert (Lc : length c = size). { destruct Hf as (_ & F & _). rewrite Forall_forall in F. apply F. exact (nth_error_In _ _ N). }
  assert (Lk : (k < length coeffs)%nat) by (apply nth_error_Some; rewrite N; discriminate).
  assert (Q0 : set_coeff k n (nth n c 0) coeffs = coeffs) by (apply set_coeff_self; [exact N|lia]).
  destruct (atom_rate size nmus nt rc rs old types iidx (nudge k (nudge n (fun _ => fun t => t)) (still_rows coeffs)) (unit_rows k n coeffs)
    (still_nbs nbs) (repeat (0, 0, 0) (length nbs)) (nth n c 0) Hr Ho) with (combs := combs) (G := G)
    as (grads' & rows' & f & E' & V & _ & _ & D0); try assumption.
  - rewrite still_nbs_at, coeff_path_at, Q0. exact Hf.
  - rewrite still_nbs_at. exact Hg.
  - apply still_nbs_moves.
  - apply coeff_path_dl.
  - rewrite still_nbs_at, coeff_path_at, Q0, E in E'. injection E' as <- <-.
    exists f. split; [intros t; rewrite <- V, still_nbs_at, coeff_path_at; reflexivity|].
    rewrite along_zero_r, Rplus_0_l in D0.
    assert (Lr : length rows = length coeffs) by (rewrite <- (map_length (@length R) rows), W, map_length; reflexivity).
    rewrite along_unit_rows in D0; [exact D0|exact W|lia|].
    assert (X : length (nth k rows []) = length (nth k coeffs [])). { rewrite <- (map_nth (@length R) rows [] k), W, (map_nth (@length R) coeffs [] k). reflexivity. }
    rewrite X, (nth_error_nth _ _ _ N). lia.
Qed.

(** *** Rotations *)
Lemma row_rotated q c n : keeps_length q -> ROW c (move (apply_map q) n) = ROW c n.
Proof.
  intros K. unfold descriptor_row. clear -K Ho. induction combs as [|cb l IH]; [reflexivity|]. cbn [mapM]. rewrite IH. f_equal.
  apply value_rotation; assumption.
Qed.
Lemma fits_move f : fits size nmus nt coeffs types iidx (move f nbs).
Proof.
  destruct Hf as (A & B & C & D0 & E). repeat split; try assumption; try apply D0. unfold move. rewrite Forall_map. exact E.
Qed.
Lemma regular_move q : keeps_length q -> Forall (fun nb => regular rs (snd nb)) (move (apply_map q) nbs).
Proof.
  intros K. unfold move. rewrite Forall_map. eapply Forall_impl; [|exact Hg]. intros [z r] [N Z]. cbn [snd] in *. split.
  - rewrite K. exact N.
  - intros E. apply Z. apply norm2_zero. rewrite <- K, E. vec_unfold. ring.
Qed.

Lemma along_cross e grads : along grads (map (fun nb : Z * vec => cross e (snd nb)) nbs) = dot e (torque nbs grads).
Proof.
  clear. revert grads; induction nbs as [|nb l IH]; intros [|g grads]; try (unfold along, sum_over, torque; cbn; vec_unfold; ring).
  unfold along, sum_over, torque in *. cbn [map combine fold_right fst snd]. rewrite IH.
  match goal with |- dot g (cross e (snd nb)) + dot e ?T = _ => generalize T end. intros T. destruct nb as [z r]. cbn [snd]. clear. vec_ring.
Qed.
Lemma no_torque : exists grads rows, BACK coeffs nbs = Ok (grads, rows) /\ torque nbs grads = (0, 0, 0).
Proof.
  destruct back_ok as (grads & rows & E & L & _). exists grads, rows. split; [exact E|].
  assert (K : forall k, (k < 3)%nat -> dot (unit_vec k) (torque nbs grads) = 0).
  { intros k Hk. set (path := map (fun nb : Z * vec => (fst nb, fun t => apply_map (turn k t) (snd nb))) nbs).
    assert (P : forall t, nbs_at t path = move (apply_map (turn k t)) nbs). { intros t. unfold nbs_at, path, move. rewrite map_map. reflexivity. }
    assert (P0 : nbs_at 0 path = nbs). { rewrite P. unfold move. rewrite <- (map_id nbs) at 2. apply map_ext. intros [z r]. cbn [fst snd]. rewrite turn_zero. reflexivity. }
    destruct (atom_rate size nmus nt rc rs old types iidx (still_rows coeffs) (zero_rows coeffs) path (map (fun nb => cross (unit_vec k) (snd nb)) nbs) 0 Hr Ho) with (combs := combs) (G := G)
      as (grads' & rows' & f & E' & V & _ & _ & D0); try assumption.
    - rewrite still_rows_at, P0. exact Hf.
    - rewrite P0. exact Hg.
    - unfold path. pose proof (fun r => turn_moves k r Hk) as TM. clear -TM. induction nbs as [|nb l IH]; [exact (Forall2_nil _)|]. cbn [map]. constructor; [exact (TM (snd nb))|exact IH].
    - apply still_rows_dl.
    - rewrite still_rows_at, P0, E in E'. injection E' as <- <-. rewrite along_rows_zero, Rplus_0_r, along_cross in D0.
      apply (dl_unique (fun t => weighted G (f t)) 0); [exact D0|].
      apply (dl_ext (fun _ => weighted G (f 0))); [|apply dl_const]. intros t. f_equal.
      pose proof (V t) as Vt. pose proof (V 0) as V0. rewrite still_rows_at, P, row_rotated in Vt by apply turn_keeps. rewrite still_rows_at, P0, Vt in V0.
      injection V0 as V0. symmetry. exact V0. }
  pose proof (K 0%nat ltac:(lia)) as K0. pose proof (K 1%nat ltac:(lia)) as K1. pose proof (K 2%nat ltac:(lia)) as K2.
  destruct (torque nbs grads) as [[a b] c]. unfold unit_vec, with_coord in *. vec_unfold. f_equal; [f_equal|]; lra.
Qed.

Definition one_vec (a : nat) (v : vec) : list vec := nudge a (fun _ => v) (repeat (0, 0, 0) (length nbs)).
Lemma along_one grads a v : length grads = length nbs -> (a < length nbs)%nat -> along grads (one_vec a v) = dot (nth a grads (0, 0, 0)) v.
Proof.
  unfold one_vec. clear. intros L. rewrite <- L. clear L. revert a; induction grads as [|g grads IH]; intros [|a] L; cbn [length] in L; try lia.
  - unfold along, sum_over. cbn [length repeat nudge combine map fold_right fst snd nth]. pose proof (along_zero_r (length grads) grads) as Z. unfold along, sum_over in Z. rewrite Z. ring.
  - unfold along, sum_over in *. cbn [length repeat nudge combine map fold_right fst snd nth]. rewrite IH by lia. vec_unfold. ring.
Qed.
End Main.

Section Rotated.
Variables (size nmus nt : nat) (rc rs : R) (old : tables).
Hypothesis Hr : rs < rc.
Hypothesis Ho : sized size old.
Variables (coeffs : list (list R)) (types : list Z) (iidx : Z) (nbs : list (Z * vec)) (combs : list (list (nat * nat))) (G : list R).
Hypothesis Hf : fits size nmus nt coeffs types iidx nbs.
Hypothesis Hg : Forall (fun nb => regular rs (snd nb)) nbs.
Hypothesis Hc : Forall (complete nmus) combs.
Hypothesis Hl : length G = length combs.
Notation BACK c n := (atom_back size rc rs old (Z.of_nat nt) c types iidx n combs G).
Notation ROW c n := (descriptor_row size rc rs old (Z.of_nat nt) c types iidx n combs).

Lemma rotated_forces q : keeps_length q -> exists grads rows, BACK coeffs nbs = Ok (grads, rows) /\
  BACK coeffs (move (apply_map q) nbs) = Ok (map (apply_map q) grads, rows).
Proof.
  intros K. pose proof (fits_move size nmus nt coeffs types iidx nbs Hf (apply_map q)) as Hf'. pose proof (regular_move rs nbs Hg q K) as Hg'.
  destruct (training size nmus nt rc rs old Hr Ho coeffs types iidx nbs combs G Hf Hg Hc Hl) as (grads & rows & E & W & T).
  destruct (training size nmus nt rc rs old Hr Ho coeffs types iidx _ combs G Hf' Hg' Hc Hl) as (grads' & rows' & E' & W' & T').
  destruct (back_ok size nmus nt rc rs old Hr Ho coeffs types iidx nbs combs G Hf Hg Hc Hl) as (g1 & r1 & E1 & L & _). rewrite E in E1. injection E1 as <- <-.
  destruct (back_ok size nmus nt rc rs old Hr Ho coeffs types iidx _ combs G Hf' Hg' Hc Hl) as (g1 & r1 & E1 & L' & _). rewrite E' in E1. injection E1 as <- <-.
  assert (Lm : length (move (apply_map q) nbs) = length nbs) by (unfold move; apply map_length). rewrite Lm in L'.
  exists grads, rows. split; [exact E|]. rewrite E'. f_equal. f_equal.
  - apply (nth_ext _ _ (apply_map q (0, 0, 0)) (apply_map q (0, 0, 0))); [rewrite map_length; congruence|]. intros a La. rewrite map_nth. rewrite L' in La.
    assert (Z0 : apply_map q (0, 0, 0) = (0, 0, 0)). { destruct q as [[[[? ?] ?] [[? ?] ?]] [[? ?] ?]]. unfold apply_map. vec_unfold. f_equal; [f_equal|]; ring. }
    rewrite Z0. set (g := nth a grads (0, 0, 0)). set (g' := nth a grads' (0, 0, 0)).
    assert (A : forall v, dot g' (apply_map q v) = dot g v).
    { intros v. set (vs := one_vec nbs a v).
      set (path := map (fun p : (Z * vec) * vec => (fst (fst p), fun t => vadd (snd (fst p)) (vscale t (snd p)))) (combine nbs vs)).
      set (path' := map (fun nb : Z * (R -> vec) => (fst nb, fun t => apply_map q (snd nb t))) path).
      assert (Lv : length nbs = length vs) by (unfold vs, one_vec; rewrite nudge_length, repeat_length; reflexivity).
      assert (P0 : nbs_at 0 path = nbs).
      { unfold path, nbs_at. rewrite map_map. clearbody vs. clear -Lv. revert vs Lv; induction nbs as [|[z r] l IH]; intros [|u vs] Lv; cbn in Lv; try discriminate; [reflexivity|].
        cbn [combine map fst snd]. rewrite IH by lia. f_equal. f_equal. vec_ring. }
      assert (P' : forall t, nbs_at t path' = move (apply_map q) (nbs_at t path)). { intros t. unfold path', nbs_at, move. rewrite !map_map. reflexivity. }
      assert (M1 : Forall2 (fun nb v => moves 0 (snd nb) v) path vs).
      { unfold path. clearbody vs. clear -Lv. revert vs Lv; induction nbs as [|[z r] l IH]; intros [|u vs] Lv; cbn in Lv; try discriminate; [constructor|].
        cbn [combine map fst snd]. constructor; [apply straight_moves|apply IH; lia]. }
      assert (M2 : Forall2 (fun nb v => moves 0 (snd nb) v) path' (map (apply_map q) vs)).
      { unfold path'. clear -M1. induction M1 as [|nb u l m H M1 IH]; cbn [map]; constructor; [cbn [snd]; apply apply_moves; exact H|exact IH]. }
      destruct (atom_rate size nmus nt rc rs old types iidx (still_rows coeffs) (zero_rows coeffs) path vs 0 Hr Ho) with (combs := combs) (G := G)
        as (ga & ra & fa & Ea & Va & _ & _ & Da); try assumption; [rewrite still_rows_at, P0; exact Hf|rewrite P0; exact Hg|apply still_rows_dl|].
      destruct (atom_rate size nmus nt rc rs old types iidx (still_rows coeffs) (zero_rows coeffs) path' (map (apply_map q) vs) 0 Hr Ho) with (combs := combs) (G := G)
        as (gb & rb & fb & Eb & Vb & _ & _ & Db); try assumption; [rewrite still_rows_at, P', P0; exact Hf'|rewrite P', P0; exact Hg'|apply still_rows_dl|].
      rewrite still_rows_at, P0, E in Ea. injection Ea as <- <-. rewrite still_rows_at, P', P0, E' in Eb. injection Eb as <- <-.
      rewrite along_rows_zero, Rplus_0_r in Da, Db. unfold vs in Da at 1. rewrite along_one in Da by assumption.
      replace (map (apply_map q) vs) with (one_vec nbs a (apply_map q v)) in Db.
      2:{ unfold vs, one_vec. rewrite (nudge_map (apply_map q) a _ (fun _ => apply_map q v)) by reflexivity. f_equal.
          clear -Z0. induction (length nbs) as [|n IH]; [reflexivity|]. cbn [repeat map]. rewrite Z0, <- IH. reflexivity. }
      rewrite along_one in Db by assumption.
      apply (dl_unique (fun t => weighted G (fb t)) 0); [exact Db|]. apply (dl_ext (fun t => weighted G (fa t))); [|exact Da].
      intros t. f_equal. pose proof (Va t) as Vt. pose proof (Vb t) as Vt'. rewrite still_rows_at in Vt, Vt'. rewrite P', row_rotated, Vt in Vt' by assumption. injection Vt' as Vt'. exact Vt'. }
    assert (B : vsub g' (apply_map q g) = (0, 0, 0)).
    { apply (onto q K). intros v. replace (dot (vsub g' (apply_map q g)) (apply_map q v)) with (dot g' (apply_map q v) - dot (apply_map q g) (apply_map q v)) by (generalize (apply_map q g), (apply_map q v), g'; clear; intros u w z; vec_ring).
      rewrite A, (orthogonal q K). ring. }
    revert B. generalize g', (apply_map q g). clear. intros [[a b] c] [[d e] f]. vec_unfold. intros [= A B C]. f_equal; [f_equal|]; lra.
  - apply row_of_entries; [congruence|]. intros k n Lk Ln.
    assert (Lk' : (k < length coeffs)%nat) by (rewrite <- (map_length (@length R) coeffs), <- W', map_length; exact Lk).
    destruct (nth_error coeffs k) as [c|] eqn:N; [|apply nth_error_None in N; lia].
    assert (Lc : length c = size). { destruct Hf as (_ & F & _). rewrite Forall_forall in F. apply F. exact (nth_error_In _ _ N). }
    assert (X : length (nth k rows' []) = length (nth k coeffs [])). { rewrite <- (map_nth (@length R) rows' [] k), W', (map_nth (@length R) coeffs [] k). reflexivity. }
    rewrite X, (nth_error_nth _ _ _ N), Lc in Ln.
    destruct (T k n c N Ln) as (f & F1 & F2). destruct (T' k n c N Ln) as (f' & F1' & F2').
    apply (dl_unique (fun t => weighted G (f' t)) (nth n c 0)); [exact F2'|]. apply (dl_ext (fun t => weighted G (f t))); [|exact F2].
    intros t. f_equal. pose proof (F1 t) as Vt. pose proof (F1' t) as Vt'. rewrite row_rotated, Vt in Vt' by assumption. injection Vt' as Vt'. exact Vt'.
Qed.
End Rotated.

(** *** Neighbours out of range *)
Section Outside.
Variables (size : nat) (rc rs : R) (old : tables).
Hypothesis Ho : sized size old.
Variables (ntypes : Z) (coeffs : list (list R)) (types : list Z) (iidx : Z).
Lemma outside_zero r n : outside rc rs r -> RF rc rs n r = 0 /\ RG rc rs n r = [0; 0; 0].
Proof.
  unfold outside. rewrite norm_vnorm. intros H. unfold RF, RG, Q, DQ. destruct (Rlt_dec (vnorm r) rs) as [A|A].
  - split; [reflexivity|]. destruct (Req_EM_T _ _); [reflexivity|]. unfold Rdiv. rewrite !Rmult_0_l. reflexivity.
  - destruct (Rlt_dec (vnorm r) rc) as [B|B]; [lra|]. split; [reflexivity|]. destruct (Req_EM_T _ _); [reflexivity|]. unfold Rdiv. rewrite !Rmult_0_l. reflexivity.
Qed.
Lemma dot_zero_vec u : (forall v, dot u v = 0) -> u = (0, 0, 0).
Proof. intros H. apply norm2_zero. apply H. Qed.
Lemma dot_rows_len a b w : dot_rows a b = Ok w -> length a = length b.
Proof.
  revert b w; induction a as [|x a IH]; intros [|y b] w H; cbn in H; try discriminate; [reflexivity|].
  destruct (dot_rows a b) as [v|] eqn:E; cbn in H; [|discriminate]. cbn. f_equal. exact (IH b v E).
Qed.
Lemma outside_share mu nu zi g nb s : outside rc rs (snd nb) -> neighbour_back size rc rs old ntypes coeffs types mu nu zi g nb = Ok s -> fst s = (0, 0, 0).
Proof.
  intros H E. unfold neighbour_back in E. destruct (pyget types (fst nb)) as [zj|]; [|discriminate]. cbn [bind] in E.
  destruct (coeff_row _ _) as [c|]; [|discriminate]. cbn [bind] in E. rewrite radial_forward_ok in E by exact Ho. cbn [bind fst snd] in E.
  rewrite (map_ext _ (fun _ => 0)) in E by (intros n; apply outside_zero; exact H).
  rewrite (map_ext (fun n => RG rc rs n (snd nb)) (fun _ => [0; 0; 0])) in E by (intros n; apply outside_zero; exact H).
  destruct (dot_rows c _) as [w|] eqn:W; [|discriminate]. cbn [bind] in E. pose proof (dot_rows_len _ _ _ W) as L.
  rewrite dot_rows_weighted in W by exact L. injection W as W. rewrite weighted_zero in W. rewrite map_length, seq_length in L.
  rewrite (backward_ok size) in E; [|rewrite map_length; exact L|reflexivity]. cbn [bind seq map] in E. injection E as <-. cbn [fst].
  unfold entry. cbn [nth]. rewrite !weighted_zero. apply dot_zero_vec. intros v.
  replace (dot (vadd (0, 0, 0) (angular_back nu (snd nb) (tscale w g))) v) with (dot (angular_back nu (snd nb) (tscale w g)) v) by (generalize (angular_back nu (snd nb) (tscale w g)); clear; intros u; vec_ring).
  rewrite angular_back_rate, <- W. cbn [tscale at_]. transitivity (sum_idx nu (fun _ => 0)); [|apply sum_idx_zero]. apply sum_idx_ext. intros i _. ring.
Qed.
Lemma mapM_F2 {A B} (f : A -> result B) l m : mapM f l = Ok m -> Forall2 (fun a b => f a = Ok b) l m.
Proof.
  revert m; induction l as [|a l IH]; intros m H; cbn in H; [injection H as <-; constructor|].
  destruct (f a) as [b|] eqn:E; [|discriminate]. cbn in H. destruct (mapM f l) as [m'|]; [|discriminate]. cbn in H. injection H as <-. constructor; [exact E|apply IH; reflexivity].
Qed.
Definition nil_at (a n : nat) (ss : list share) : Prop := length ss = n /\ forall s, nth_error ss a = Some s -> fst s = (0, 0, 0).
Lemma outside_moment mu nu g nbs a z r ss : nth_error nbs a = Some (z, r) -> outside rc rs r ->
  moment_back size rc rs old ntypes coeffs types iidx nbs mu nu g = Ok ss -> nil_at a (length nbs) ss.
Proof.
  intros N H E. unfold moment_back in E. destruct (pyget types iidx) as [zi|]; [|discriminate]. cbn [bind] in E. apply mapM_F2 in E. split; [symmetry; exact (F2_length _ _ _ E)|].
  intros s Ns. revert a N Ns. induction E as [|nb s' l m H0 E IH]; intros [|a] N Ns; try discriminate; cbn in N, Ns.
  - injection N as ->. injection Ns as ->. apply (outside_share mu nu zi g (z, r) s); assumption.
  - apply (IH a); assumption.
Qed.
Lemma outside_product nbs a z r seed c : nth_error nbs a = Some (z, r) -> outside rc rs r -> forall t g ls,
  product_back size rc rs old ntypes coeffs types iidx nbs seed t c = Ok (g, ls) -> Forall (nil_at a (length nbs)) ls.
Proof.
  intros N H. induction c as [|p c IH]; intros t g ls E; cbn [product_back] in E.
  - destruct (rank t =? 0)%nat; [|discriminate]. injection E as <- <-. constructor.
  - destruct (moment_of _ _ _ _ _ _ _ _ _ _ _) as [m|]; [|discriminate]. cbn [bind] in E. destruct (rank m <=? rank t)%nat; [|destruct (rank t =? 0)%nat; [|discriminate]].
    + destruct (product_back _ _ _ _ _ _ _ _ _ _ _ _) as [[g' l']|] eqn:P; [|discriminate]. cbn [bind fst snd] in E.
      destruct (moment_back _ _ _ _ _ _ _ _ _ _ _ _) as [ss|] eqn:M; [|discriminate]. cbn [bind] in E. injection E as <- <-.
      constructor; [exact (outside_moment _ _ _ _ _ _ _ _ N H M)|exact (IH _ _ _ P)].
    + destruct (product_back _ _ _ _ _ _ _ _ _ _ _ _) as [[g' l']|] eqn:P; [|discriminate]. cbn [bind fst snd] in E.
      destruct (moment_back _ _ _ _ _ _ _ _ _ _ _ _) as [ss|] eqn:M; [|discriminate]. cbn [bind] in E. injection E as <- <-.
      constructor; [exact (outside_moment _ _ _ _ _ _ _ _ N H M)|exact (IH _ _ _ P)].
Qed.
Lemma nil_add a n (ss : list share) (acc : list vec) : nil_at a n ss -> nth a acc (0, 0, 0) = (0, 0, 0) -> length acc = n ->
  nth a (map (fun p => vadd (fst (fst p)) (snd p)) (combine ss acc)) (0, 0, 0) = (0, 0, 0) /\ length (map (fun p => vadd (fst (fst p)) (snd p)) (combine ss acc)) = n.
Proof.
  intros [L Z] N La. split.
  - subst n. revert a acc N La Z; induction ss as [|s ss IH]; intros [|a] [|v acc] N La Z; cbn in La; try discriminate; try reflexivity; cbn [combine map nth fst snd].
    + cbn in N. rewrite N, (Z s eq_refl). vec_unfold. f_equal; [f_equal|]; ring.
    + apply (IH a acc); [exact N|lia|]. intros s' Ns. apply (Z s'). exact Ns.
  - rewrite map_length, combine_length. transitivity (Nat.min n n); [f_equal; assumption|apply Nat.min_id].
Qed.
Lemma nil_coord a n ls : Forall (nil_at a n) ls -> nth a (coord_grad n ls) (0, 0, 0) = (0, 0, 0) /\ length (coord_grad n ls) = n.
Proof.
  induction 1 as [|ss ls Z F IH]; [split; [apply nth_repeat|apply repeat_length]|]. exact (nil_add a n ss (coord_grad n ls) Z (proj1 IH) (proj2 IH)).
Qed.
Lemma outside_no_force nbs combs G grads rows a z r : atom_back size rc rs old ntypes coeffs types iidx nbs combs G = Ok (grads, rows) ->
  nth_error nbs a = Some (z, r) -> outside rc rs r -> nth_error grads a = Some (0, 0, 0).
Proof.
  intros E N H. unfold atom_back in E. destruct (length G =? length combs)%nat; [|discriminate].
  destruct (mapM _ _) as [ls|] eqn:M; [|discriminate]. cbn [bind] in E. injection E as <- <-. apply mapM_F2 in M.
  assert (F : Forall (nil_at a (length nbs)) (concat ls)).
  { apply Forall_concat. induction M as [|cg l cgs lss E M IH]; constructor; [|exact IH]. unfold basis_back in E.
    destruct (product_back _ _ _ _ _ _ _ _ _ _ _ _) as [[g' l']|] eqn:P; [|discriminate]. cbn in E. injection E as <-. exact (outside_product _ _ _ _ _ _ N H _ _ _ P). }
  destruct (nil_coord a (length nbs) _ F) as [Z L].
  assert (X : nth_error nbs a <> None) by (rewrite N; discriminate). apply nth_error_Some in X.
  set (cg := coord_grad (length nbs) (concat ls)) in *. clearbody cg.
  assert (Y : (a < length cg)%nat) by (rewrite L; exact X). rewrite <- Z. apply nth_error_nth'. exact Y.
Qed.
End Outside.

(** *** Cases *)
Lemma ex_fits : fits 1 1 1 [[1]] [0; 0; 0]%Z 0 [(1%Z, (5, 0, 0)); (2%Z, (3, 4, 0)); ((-1)%Z, (0, 0, 0))].
Proof. repeat split; repeat constructor; cbn; try lia. Qed.
Lemma ex_regular : Forall (fun nb : Z * vec => regular 4 (snd nb)) [(1%Z, (5, 0, 0)); (2%Z, (3, 4, 0)); ((-1)%Z, (0, 0, 0))].
Proof.
  assert (A1 : sqrt (norm2 (5, 0, 0)) = 5). { replace (norm2 (5, 0, 0)) with (5 * 5) by (vec_unfold; ring). apply sqrt_square. lra. }
  assert (A2 : sqrt (norm2 (3, 4, 0)) = 5). { replace (norm2 (3, 4, 0)) with (5 * 5) by (vec_unfold; ring). apply sqrt_square. lra. }
  assert (A3 : sqrt (norm2 (0, 0, 0)) = 0). { replace (norm2 (0, 0, 0)) with 0 by (vec_unfold; ring). apply sqrt_0. }
  repeat constructor; cbn [snd]; rewrite ?A1, ?A2, ?A3; try lra.
Qed.
Lemma ex_complete : Forall (complete 1) [[(0, 1); (0, 1)]; [(0, 0)]; [(0, 2); (0, 1); (0, 1)]]%nat.
Proof.
  constructor; [|constructor; [|constructor; [|constructor]]]; (split; [repeat constructor|]); cbn [map snd].
  - apply leaves_new; [lia|]. apply leaves_use; [lia|]. constructor.
  - apply leaves_use; [lia|]. constructor.
  - apply leaves_new; [lia|]. apply leaves_use; [lia|]. apply leaves_use; [lia|]. constructor.
Qed.
Lemma ex_back : atom_back 1 6 4 ([0], [0], [0]) 1 [[1]] [0; 0]%Z 0 [(1%Z, (3, 4, 0))] [[(0, 1); (0, 1)]]%nat [1] = Ok ([(- (201 / 16), - (67 / 4), 0)], [[25 / 2]]).
Proof.
  pose proof (proj2 ex_radial) as X.
  unfold atom_back, basis_back, product_back, moment_back, moment_of, neighbour_back, weight.
  cbn -[radial_forward radial_backward tensordot tensordot_back_l tensordot_back_r angular angular_back sum_idx coord_grad coeff_grad].
  unfold coeff_row, coeff_index. cbn -[radial_forward radial_backward tensordot tensordot_back_l tensordot_back_r angular angular_back sum_idx coord_grad coeff_grad].
  rewrite X. change (Pos.to_nat 1) with 1%nat. cbn. unfold as_vec, tscale, tensordot_back_l, tensordot_back_r. cbn. vec_unfold.
  match goal with |- Ok ([(?a, ?b, ?c)], [[?d]]) = Ok ([(?a', ?b', ?c')], [[?d']]) =>
    assert (Ea : a = a') by field; assert (Eb : b = b') by field; assert (Ec : c = c') by field; assert (Ed : d = d') by field; rewrite Ea, Eb, Ec, Ed end. reflexivity.
Qed.

(** Exactly at the inner radius a gradient comes out although the value jumps. *)
Lemma ex_jump_value t : descriptor_row 1 6 4 ([0], [0], [0]) 1 [[1]] [0; 0]%Z 0 [(1%Z, (t, 0, 0))] [[(0, 0)]]%nat = Ok [RF 6 4 0 (t, 0, 0)].
Proof.
  unfold descriptor_row, basis_value, product_of, product_step, moment_of, weight, coeff_row, coeff_index.
  cbn -[radial_forward]. change (Pos.to_nat 1) with 1%nat. cbn -[radial_forward].
  rewrite radial_forward_ok by (repeat split). cbn. f_equal. f_equal. ring.
Qed.
Lemma inner_radius_jump : exists size nmus nt rc rs old coeffs types iidx nbs combs G, rs < rc /\ sized size old /\ fits size nmus nt coeffs types iidx nbs /\
  Forall (complete nmus) combs /\ length G = length combs /\ 
  (exists g, atom_back size rc rs old (Z.of_nat nt) coeffs types iidx nbs combs G = Ok g) /\
  exists f r, nbs = [(1%Z, r)] /\ (forall t, descriptor_row size rc rs old (Z.of_nat nt) coeffs types iidx (shift_nb 0 0 t nbs) combs = Ok (f t)) /\
  ~ continuity_pt (fun t => weighted G (f t)) (coord 0 r).
Proof.
  exists 1%nat, 1%nat, 1%nat, 6, 4, ([0], [0], [0]), [[1]], [0; 0]%Z, 0%Z, [(1%Z, (4, 0, 0))], [[(0, 0)]]%nat, [1].
  split; [lra|]. split; [repeat split|]. split; [repeat split; repeat constructor; cbn; lia|].
  split.
  { constructor; [|constructor]. split; [repeat constructor|]. cbn [map snd]. apply leaves_use; [lia|]. cbn. apply leaves_nil. }
  split; [reflexivity|]. split.
  - unfold atom_back, basis_back, product_back, moment_back, moment_of, neighbour_back, weight.
    cbn -[radial_forward radial_backward tensordot tensordot_back_l tensordot_back_r angular angular_back sum_idx coord_grad coeff_grad].
    unfold coeff_row, coeff_index. cbn -[radial_forward radial_backward tensordot tensordot_back_l tensordot_back_r angular angular_back sum_idx coord_grad coeff_grad].
    rewrite radial_forward_ok by (repeat split). change (Pos.to_nat 1) with 1%nat. cbn -[RF RG radial_backward coord_grad coeff_grad].
    unfold RG. destruct (Req_EM_T _ _); cbn; eexists; reflexivity.
  - exists (fun t => [RF 6 4 0 (t, 0, 0)]), (4, 0, 0). split; [reflexivity|]. split; [intros t; apply ex_jump_value|].
    cbn [coord]. unfold vx. cbn [fst snd]. intros C. apply (Q_jump 6 4 0 ltac:(lra)).
    intros eps He. destruct (C eps He) as (d & D0 & K). exists (Rmin d 4). split; [apply Rmin_pos; [exact D0|lra]|].
    intros t [[_ Nt] Ht]. change (Rabs (t - 4) < Rmin d 4) in Ht. apply Rabs_def2 in Ht. assert (Hd := Rmin_l d 4). assert (Hd4 := Rmin_r d 4).
    assert (V : forall u, 0 < u -> RF 6 4 0 (u, 0, 0) = Q 6 4 0 u).
    { intros u Hu. unfold RF. f_equal. unfold vnorm, vx, vy, vz. cbn [fst snd]. replace (u ^ 2 + 0 ^ 2 + 0 ^ 2) with (u * u) by ring. apply sqrt_square. lra. }
    assert (B : Rabs (t - 4) < d) by (apply Rabs_def1; lra). assert (Kt := K t (conj (conj I Nt) B)).
    change (Rabs (1 * RF 6 4 0 (t, 0, 0) + 0 - (1 * RF 6 4 0 (4, 0, 0) + 0)) < eps) in Kt. rewrite !V in Kt by lra.
    change (Rabs (Q 6 4 0 t - Q 6 4 0 4) < eps). replace (Q 6 4 0 t - Q 6 4 0 4) with (1 * Q 6 4 0 t + 0 - (1 * Q 6 4 0 4 + 0)) by ring. exact Kt.
Qed.
