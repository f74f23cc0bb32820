(** Lemmas about the moment tensor descriptor values. *)
From Verif Require Export MtpValueModel MtpValueSpec.
From Verif Require Import DataModel SeSpec ChebProofs.
From Verif Require MtpLevelModel.
From Coq Require Import Permutation Lra Lia.
Local Open Scope R_scope.

(** *** Sums over index lists *)
Lemma sum_idx_ext n f g : (forall i, length i = n -> f i = g i) -> sum_idx n f = sum_idx n g.
Proof.
  revert f g; induction n as [|n IH]; intros f g H; cbn [sum_idx]; [apply H; reflexivity|].
  rewrite (IH (fun i => f (0%nat :: i)) (fun i => g (0%nat :: i))), (IH (fun i => f (1%nat :: i)) (fun i => g (1%nat :: i))), (IH (fun i => f (2%nat :: i)) (fun i => g (2%nat :: i)));
    [reflexivity| | |]; intros i L; apply H; cbn; lia.
Qed.
Lemma sum_idx_plus n f g : sum_idx n (fun i => f i + g i) = sum_idx n f + sum_idx n g.
Proof. revert f g; induction n as [|n IH]; intros f g; cbn [sum_idx]; [reflexivity|]. rewrite !IH. ring. Qed.
Lemma sum_idx_scale n x f : sum_idx n (fun i => x * f i) = x * sum_idx n f.
Proof. revert f; induction n as [|n IH]; intros f; cbn [sum_idx]; [reflexivity|]. rewrite !IH. ring. Qed.
Lemma sum_idx_scale_r n x f : sum_idx n (fun i => f i * x) = sum_idx n f * x.
Proof. revert f; induction n as [|n IH]; intros f; cbn [sum_idx]; [reflexivity|]. rewrite !IH. ring. Qed.
Lemma sum_idx_zero n : sum_idx n (fun _ => 0) = 0.
Proof. induction n as [|n IH]; cbn [sum_idx]; [reflexivity|]. rewrite !IH. ring. Qed.
Lemma sum_idx_swap m n (f : list nat -> list nat -> R) : sum_idx m (fun i => sum_idx n (f i)) = sum_idx n (fun j => sum_idx m (fun i => f i j)).
Proof.
  revert f; induction m as [|m IH]; intros f; cbn [sum_idx]; [reflexivity|]. rewrite !IH.
  rewrite <- !sum_idx_plus. reflexivity.
Qed.
Lemma sum_idx_split m n f : sum_idx (m + n) f = sum_idx m (fun i => sum_idx n (fun j => f (i ++ j))).
Proof. revert f; induction m as [|m IH]; intros f; cbn [sum_idx Nat.add]; [reflexivity|]. rewrite !IH. reflexivity. Qed.
Lemma sum_idx_mul m n f g : sum_idx m f * sum_idx n g = sum_idx m (fun i => sum_idx n (fun j => f i * g j)).
Proof. rewrite <- sum_idx_scale_r. apply sum_idx_ext. intros i _. symmetry. apply sum_idx_scale. Qed.

(** *** Length-preserving maps *)
Definition row_of (q : vec * vec * vec) (a : nat) : vec := match a with 0%nat => fst (fst q) | 1%nat => snd (fst q) | _ => snd q end.
Definition qent (q : vec * vec * vec) (a b : nat) : R := component (row_of q a) b.
Fixpoint qprod (q : vec * vec * vec) (i j : list nat) : R := match i, j with a :: i', b :: j' => qent q a b * qprod q i' j' | _, _ => 1 end.
Fixpoint vprod (r : vec) (i : list nat) : R := match i with [] => 1 | a :: i' => component r a * vprod r i' end.

Lemma apply_component q r a : component (apply_map q r) a = qent q a 0 * component r 0 + qent q a 1 * component r 1 + qent q a 2 * component r 2.
Proof. destruct a as [|[|a]]; reflexivity. Qed.

Lemma columns q : keeps_length q ->
  forall x0 x1 x2 y0 y1 y2,
  (qent q 0 0 * x0 + qent q 0 1 * x1 + qent q 0 2 * x2) * (qent q 0 0 * y0 + qent q 0 1 * y1 + qent q 0 2 * y2) +
  (qent q 1 0 * x0 + qent q 1 1 * x1 + qent q 1 2 * x2) * (qent q 1 0 * y0 + qent q 1 1 * y1 + qent q 1 2 * y2) +
  (qent q 2 0 * x0 + qent q 2 1 * x1 + qent q 2 2 * x2) * (qent q 2 0 * y0 + qent q 2 1 * y1 + qent q 2 2 * y2)
  = x0 * y0 + x1 * y1 + x2 * y2.
Proof.
  intros H x0 x1 x2 y0 y1 y2. pose proof (H (x0 + y0, x1 + y1, x2 + y2)) as A. pose proof (H (x0 - y0, x1 - y1, x2 - y2)) as B.
  destruct q as [[[[a b] c] [[d e] f]] [[g h] k]].
  unfold qent, row_of, component, apply_map in *. vec_unfold. lra.
Qed.

(** Rotating both sides of a full contraction leaves it. *)
Lemma contraction q n a b : keeps_length q ->
  sum_idx n (fun i => sum_idx n (fun j => qprod q i j * a j) * sum_idx n (fun j => qprod q i j * b j)) = sum_idx n (fun j => a j * b j).
Proof.
  intros K. revert a b; induction n as [|n IH]; intros a b; cbn [sum_idx]; [cbn [qprod]; ring|].
  set (A := fun y i => sum_idx n (fun j => qprod q i j * a (y :: j))).
  set (B := fun y i => sum_idx n (fun j => qprod q i j * b (y :: j))).
  assert (EA : forall x i y, sum_idx n (fun j => qprod q (x :: i) (y :: j) * a (y :: j)) = qent q x y * A y i).
  { intros x i y. unfold A. rewrite <- sum_idx_scale. apply sum_idx_ext. intros j _. cbn [qprod]. ring. }
  assert (EB : forall x i y, sum_idx n (fun j => qprod q (x :: i) (y :: j) * b (y :: j)) = qent q x y * B y i).
  { intros x i y. unfold B. rewrite <- sum_idx_scale. apply sum_idx_ext. intros j _. cbn [qprod]. ring. }
  rewrite <- !sum_idx_plus.
  transitivity (sum_idx n (fun i => A 0%nat i * B 0%nat i + A 1%nat i * B 1%nat i + A 2%nat i * B 2%nat i)).
  - apply sum_idx_ext. intros i _. rewrite !EA, !EB. apply columns. exact K.
  - rewrite !sum_idx_plus. unfold A, B. rewrite !IH. reflexivity.
Qed.

Lemma qprod_app q i1 i2 j1 j2 : length i1 = length j1 -> qprod q (i1 ++ i2) (j1 ++ j2) = qprod q i1 j1 * qprod q i2 j2.
Proof.
  revert j1; induction i1 as [|a i1 IH]; intros [|b j1] L; cbn in L; try lia; cbn [app qprod]; [ring|].
  rewrite IH by lia. ring.
Qed.
Lemma vprod_map q n r i : length i = n -> vprod (apply_map q r) i = sum_idx n (fun j => qprod q i j * vprod r j).
Proof.
  revert n; induction i as [|a i IH]; intros [|n] L; cbn in L; try lia; cbn [vprod sum_idx qprod]; [ring|].
  rewrite (IH n) by lia. rewrite apply_component.
  assert (E : forall y, sum_idx n (fun j => qent q a y * qprod q i j * (component r y * vprod r j)) = qent q a y * component r y * sum_idx n (fun j => qprod q i j * vprod r j)).
  { intros y. rewrite <- sum_idx_scale. apply sum_idx_ext. intros j _. ring. }
  rewrite !E. ring.
Qed.
Lemma vprod_dot r s n : sum_idx n (fun k => vprod r k * vprod s k) = dot r s ^ n.
Proof.
  induction n as [|n IH]; cbn [sum_idx vprod pow]; [ring|].
  assert (E : forall y, sum_idx n (fun i => component r y * vprod r i * (component s y * vprod s i)) = component r y * component s y * dot r s ^ n).
  { intros y. rewrite <- IH, <- sum_idx_scale. apply sum_idx_ext. intros i _. ring. }
  rewrite !E. unfold dot, component. ring.
Qed.
Lemma vprod_app r i j : vprod r (i ++ j) = vprod r i * vprod r j.
Proof. induction i as [|a i IH]; cbn [app vprod]; [ring|]. rewrite IH. ring. Qed.

(** *** The angular part *)
Lemma angular_rank nu r : rank (angular nu r) = nu.
Proof.
  destruct nu as [|m]; [reflexivity|]. unfold angular. induction m as [|m IH]; [reflexivity|].
  cbn [Nat.iter nat_rect]. cbn [Nat.iter] in IH. unfold tensordot at 1. cbn [rank]. unfold Nat.iter in IH. rewrite IH. cbn [of_vec rank]. lia.
Qed.
Lemma angular_at nu r i : length i = nu -> at_ (angular nu r) i = vprod r i.
Proof.
  revert i; destruct nu as [|m]; intros i L; [destruct i; [reflexivity|discriminate]|].
  revert i L; induction m as [|m IH]; intros i L.
  - destruct i as [|a [|b i]]; cbn in L; try lia. cbn. ring.
  - pose proof (angular_rank (S m) r) as K.
    change (angular (S (S m)) r) with (tensordot (angular (S m) r) (of_vec r) 0). unfold tensordot. rewrite K. cbn [at_ sum_idx].
    rewrite Nat.sub_0_r, app_nil_r. cbn [app of_vec at_].
    rewrite IH by (rewrite firstn_length; lia). rewrite <- (firstn_skipn (S m) i) at 3.
    assert (L2 : length (skipn (S m) i) = 1%nat) by (rewrite skipn_length; lia). rewrite vprod_app.
    destruct (skipn (S m) i) as [|b [|c k]]; cbn in L2; try lia. cbn [hd vprod]. ring.
Qed.

(** *** How tensors turn with the axes *)
Definition turns (q : vec * vec * vec) (a b : tensor) : Prop :=
  rank a = rank b /\ forall i, length i = rank a -> at_ b i = sum_idx (rank a) (fun j => qprod q i j * at_ a j).

Lemma tensordot_turns q a b a' b' n : keeps_length q -> turns q a a' -> turns q b b' -> (n <= rank a)%nat -> (n <= rank b)%nat ->
  turns q (tensordot a b n) (tensordot a' b' n).
Proof.
  intros K [RA HA] [RB HB] NA NB. split; [unfold tensordot; cbn [rank]; rewrite RA, RB; reflexivity|].
  unfold tensordot; cbn [rank at_]. intros i L. rewrite <- RA.
  set (p := (rank a - n)%nat) in *. set (s := (rank b - n)%nat) in *.
  assert (EA : rank a = (p + n)%nat) by (unfold p; lia). assert (EB : rank b = (n + s)%nat) by (unfold s; lia).
  rewrite EA in HA. rewrite EB in HB. clearbody p s.
  set (i1 := firstn p i). set (i2 := skipn p i).
  assert (L1 : length i1 = p) by (unfold i1; rewrite firstn_length; lia).
  assert (L2 : length i2 = s) by (unfold i2; rewrite skipn_length; lia).
  assert (EI : i = i1 ++ i2) by (unfold i1, i2; symmetry; apply firstn_skipn). clearbody i1 i2. subst i.
  set (al := fun k => sum_idx p (fun j => qprod q i1 j * at_ a (j ++ k))).
  set (be := fun k => sum_idx s (fun j => qprod q i2 j * at_ b (k ++ j))).
  transitivity (sum_idx n (fun k => sum_idx n (fun j => qprod q k j * al j) * sum_idx n (fun j => qprod q k j * be j))).
  - apply sum_idx_ext. intros k Lk. f_equal.
    + rewrite HA by (rewrite app_length; lia). rewrite sum_idx_split, sum_idx_swap. apply sum_idx_ext. intros j Lj.
      unfold al. rewrite <- sum_idx_scale. apply sum_idx_ext. intros j1 Lj1. rewrite qprod_app by lia. ring.
    + rewrite HB by (rewrite app_length; lia). rewrite sum_idx_split. apply sum_idx_ext. intros j Lj.
      unfold be. rewrite <- sum_idx_scale. apply sum_idx_ext. intros j2 Lj2. rewrite qprod_app by lia. ring.
  - rewrite contraction by exact K. unfold al, be. rewrite sum_idx_split.
    transitivity (sum_idx n (fun k => sum_idx p (fun j1 => sum_idx s (fun j2 => qprod q i1 j1 * at_ a (j1 ++ k) * (qprod q i2 j2 * at_ b (k ++ j2)))))).
    { apply sum_idx_ext. intros k _. apply sum_idx_mul. }
    rewrite sum_idx_swap. apply sum_idx_ext. intros j1 L1'. rewrite sum_idx_swap. apply sum_idx_ext. intros j2 L2'.
    rewrite qprod_app by lia. rewrite <- sum_idx_scale. apply sum_idx_ext. intros k _.
    rewrite firstn_app, skipn_app, L1', Nat.sub_diag.
    rewrite (firstn_all2 j1) by lia. rewrite (skipn_all2 j1) by lia. cbn [firstn skipn app]. rewrite app_nil_r. ring.
Qed.

Lemma scalar_turns q x : turns q (of_scalar x) (of_scalar x).
Proof. split; [reflexivity|]. intros i L. destruct i; [|discriminate]. cbn. ring. Qed.
Lemma tscale_turns q x a b : turns q a b -> turns q (tscale x a) (tscale x b).
Proof.
  intros [RA H]. split; [exact RA|]. cbn [tscale rank at_]. intros i L. rewrite H by exact L. rewrite <- sum_idx_scale.
  apply sum_idx_ext. intros j _. ring.
Qed.

(** *** Weights *)
Lemma norm_map q r : keeps_length q -> vnorm (apply_map q r) = vnorm r.
Proof.
  intros K. specialize (K r). unfold vnorm. f_equal. unfold norm2 in K. destruct (apply_map q r) as [[a b] c], r as [[x y] z].
  unfold dot, vx, vy, vz in *. cbn [fst snd] in *. lra.
Qed.

Section D.
Variables (size : nat) (rcut rcut_smooth : R) (old : tables).
Hypothesis SZ : sized size old.
Variables (ntypes : Z) (coeffs : list (list R)).
Notation weight' := (weight size rcut rcut_smooth old ntypes coeffs).
Notation moment' := (moment_of size rcut rcut_smooth old ntypes coeffs).
Notation product' := (product_of size rcut rcut_smooth old ntypes coeffs).
Notation step' := (product_step size rcut rcut_smooth old ntypes coeffs).
Notation value' := (basis_value size rcut rcut_smooth old ntypes coeffs).

Lemma weight_map q types mu zi nb : keeps_length q -> weight' types mu zi (fst nb, apply_map q (snd nb)) = weight' types mu zi nb.
Proof.
  intros K. unfold weight. cbn [fst snd]. destruct (pyget types (fst nb)) as [zj|]; [|reflexivity]. cbn [bind].
  destruct (coeff_row _ _) as [c|]; [|reflexivity]. cbn [bind]. rewrite !radial_forward_ok by exact SZ. cbn [bind fst].
  f_equal. apply map_ext. intros n. unfold RF. rewrite norm_map by exact K. reflexivity.
Qed.
Lemma weights_map q types mu zi nbs : keeps_length q -> mapM (weight' types mu zi) (move (apply_map q) nbs) = mapM (weight' types mu zi) nbs.
Proof.
  intros K. induction nbs as [|nb nbs IH]; [reflexivity|]. cbn [move map mapM]. fold (move (apply_map q) nbs).
  rewrite weight_map by exact K. rewrite IH. reflexivity.
Qed.

Lemma add_up_idx n q i (l : list (R * (Z * vec))) : length i = n ->
  add_up (map (fun wn => fst wn * vprod (apply_map q (snd (snd wn))) i) l) =
  sum_idx n (fun j => qprod q i j * add_up (map (fun wn => fst wn * vprod (snd (snd wn)) j) l)).
Proof.
  intros L. induction l as [|[w [k r]] l IH]; cbn [map add_up fold_right fst snd].
  - rewrite (sum_idx_ext _ _ (fun _ => 0)) by (intros; cbn; ring). rewrite sum_idx_zero. reflexivity.
  - fold (add_up (map (fun wn => fst wn * vprod (apply_map q (snd (snd wn))) i) l)). rewrite IH.
    rewrite (vprod_map q n r i L). rewrite <- sum_idx_scale, <- sum_idx_plus. apply sum_idx_ext. intros j _. unfold add_up. ring.
Qed.

Lemma combine_move (ws : list R) (f : vec -> vec) (nbs : list (Z * vec)) : combine ws (move f nbs) = map (fun wn => (fst wn, (fst (snd wn), f (snd (snd wn))))) (combine ws nbs).
Proof. revert ws; induction nbs as [|nb nbs IH]; intros [|w ws]; cbn; try reflexivity. rewrite <- IH. reflexivity. Qed.

(** Outcomes that are the same error, or tensors turning into one another. *)
Definition turns_result (q : vec * vec * vec) (x y : result tensor) : Prop :=
  match x, y with Ok a, Ok b => turns q a b | Err e, Err e' => e = e' | _, _ => False end.

Lemma moment_turns q types iidx nbs mu nu : keeps_length q ->
  turns_result q (moment' types iidx nbs mu nu) (moment' types iidx (move (apply_map q) nbs) mu nu).
Proof.
  intros K. unfold moment_of. destruct (pyget types iidx) as [zi|e]; cbn [bind]; [|reflexivity].
  rewrite weights_map by exact K. destruct (mapM _ nbs) as [ws|e]; cbn [bind]; [|reflexivity].
  split; [reflexivity|]. cbn [rank at_]. intros i L. rewrite combine_move, map_map. cbn [fst snd].
  transitivity (add_up (map (fun wn => fst wn * vprod (apply_map q (snd (snd wn))) i) (combine ws nbs))).
  { f_equal. apply map_ext. intros [w [k r]]. cbn [fst snd]. rewrite angular_at by exact L. reflexivity. }
  rewrite (add_up_idx nu) by exact L. apply sum_idx_ext. intros j Lj. f_equal. f_equal. apply map_ext.
  intros [w [k r]]. cbn [fst snd]. rewrite angular_at by exact Lj. reflexivity.
Qed.

Lemma step_turns q types iidx nbs x y p : keeps_length q -> turns_result q x y ->
  turns_result q (step' types iidx nbs x p) (step' types iidx (move (apply_map q) nbs) y p).
Proof.
  intros K H. destruct x as [a|e], y as [b|e']; cbn in H; try contradiction; [|subst; reflexivity].
  unfold product_step. cbn [bind]. pose proof (moment_turns q types iidx nbs (fst p) (snd p) K) as M.
  destruct (moment' types iidx nbs (fst p) (snd p)) as [m|e], (moment' types iidx (move (apply_map q) nbs) (fst p) (snd p)) as [m'|e']; cbn in M; try contradiction; cbn [bind]; [|exact M].
  destruct H as [RA HA]. pose proof M as [RM _]. rewrite <- RM, <- RA. destruct (Nat.leb_spec (rank m) (rank a)) as [G|G].
  - apply tensordot_turns; [exact K|split; assumption|exact M|exact G|lia].
  - destruct (Nat.eqb_spec (rank a) 0) as [Z|Z]; [|reflexivity].
    assert (E : at_ b [] = at_ a []). { rewrite HA by (rewrite Z; reflexivity). rewrite Z. cbn. ring. }
    rewrite E. apply tscale_turns. exact M.
Qed.

Lemma product_turns q types iidx nbs c : keeps_length q ->
  turns_result q (product' types iidx nbs c) (product' types iidx (move (apply_map q) nbs) c).
Proof.
  intros K. unfold product_of.
  assert (G : forall l x y, turns_result q x y -> turns_result q (fold_left (step' types iidx nbs) l x) (fold_left (step' types iidx (move (apply_map q) nbs)) l y)).
  { induction l as [|p l IH]; intros x y H; [exact H|]. cbn [fold_left]. apply IH. apply step_turns; assumption. }
  apply G. cbn. apply scalar_turns.
Qed.

Lemma value_rotation q types iidx nbs c : keeps_length q ->
  value' types iidx (move (apply_map q) nbs) c = value' types iidx nbs c.
Proof.
  intros K. unfold basis_value. pose proof (product_turns q types iidx nbs c K) as H.
  destruct (product' types iidx nbs c) as [a|e], (product' types iidx (move (apply_map q) nbs) c) as [b|e']; cbn in H; try contradiction; cbn [bind]; [|subst; reflexivity].
  destruct H as [RA HA]. rewrite <- RA. destruct (Nat.eqb_spec (rank a) 0) as [Z|Z]; [|reflexivity].
  rewrite HA by (rewrite Z; reflexivity). rewrite Z. cbn. f_equal. ring.
Qed.

(** *** The same tensor, and the same value *)
Definition same (a b : tensor) : Prop := rank a = rank b /\ forall i, at_ a i = at_ b i.
Definition same_ok (x y : result tensor) : Prop :=
  match x, y with Ok a, Ok b => same a b | Err _, Err _ => True | _, _ => False end.
Lemma tensordot_same a b a' b' n : same a a' -> same b b' -> same (tensordot a b n) (tensordot a' b' n).
Proof.
  intros [R1 H1] [R2 H2]. split; unfold tensordot; cbn [rank at_]; rewrite R1; [rewrite R2; reflexivity|]. intros i.
  apply sum_idx_ext. intros k _. rewrite H1, H2. reflexivity.
Qed.
Lemma step_same types iidx nbs nbs' x y p : same_ok x y -> same_ok (moment' types iidx nbs (fst p) (snd p)) (moment' types iidx nbs' (fst p) (snd p)) ->
  same_ok (step' types iidx nbs x p) (step' types iidx nbs' y p).
Proof.
  intros H M. unfold product_step. destruct x as [a|e], y as [b|e']; cbn in H; try contradiction; [|exact I]. cbn [bind].
  destruct (moment' types iidx nbs (fst p) (snd p)) as [m|e], (moment' types iidx nbs' (fst p) (snd p)) as [m'|e']; cbn in M; try contradiction; cbn [bind]; [|exact I].
  pose proof H as [RA HA]. pose proof M as [RM HM]. rewrite RA, RM. destruct (rank m' <=? rank b)%nat; [apply tensordot_same; assumption|].
  destruct (rank b =? 0)%nat; [|exact I]. split; [exact RM|]. intros i. cbn [tscale at_]. rewrite HA, HM. reflexivity.
Qed.
Lemma value_same types iidx nbs nbs' c : (forall mu nu, same_ok (moment' types iidx nbs mu nu) (moment' types iidx nbs' mu nu)) ->
  forall v, value' types iidx nbs c = Ok v <-> value' types iidx nbs' c = Ok v.
Proof.
  intros M v. unfold basis_value, product_of.
  assert (G : forall l x y, same_ok x y -> same_ok (fold_left (step' types iidx nbs) l x) (fold_left (step' types iidx nbs') l y)).
  { induction l as [|p l IH]; intros x y H; [exact H|]. cbn [fold_left]. apply IH. apply step_same; [exact H|apply M]. }
  specialize (G c (Ok (of_scalar 1)) (Ok (of_scalar 1)) (conj eq_refl (fun _ => eq_refl))).
  destruct (fold_left _ c _) as [a|e], (fold_left _ c _) as [b|e']; cbn in G; try contradiction; cbn [bind]; [|split; discriminate].
  destruct G as [R0 H0]. rewrite R0, H0. reflexivity.
Qed.

(** *** Weights as a function *)
Definition okval (x : result R) : R := match x with Ok w => w | Err _ => 0 end.
Definition is_ok {A} (x : result A) : Prop := match x with Ok _ => True | Err _ => False end.
Lemma mapM_okval {A} (f : A -> result R) l : (forall x, In x l -> is_ok (f x)) -> mapM f l = Ok (map (fun x => okval (f x)) l).
Proof. intros H. apply mapM_ok_in. intros x I. specialize (H x I). destruct (f x); [reflexivity|contradiction]. Qed.
Lemma mapM_okinv {A B} (f : A -> result B) l w : mapM f l = Ok w -> forall x, In x l -> is_ok (f x).
Proof.
  revert w; induction l as [|a l IH]; intros w H x J; [destruct J|]. cbn in H. destruct (f a) as [b|] eqn:E; [|discriminate]. cbn in H. destruct J as [J|I0].
  - subst. rewrite E. exact I.
  - destruct (mapM f l) as [w'|] eqn:E2; [|discriminate]. exact (IH w' eq_refl x I0).
Qed.
Lemma combine_map {A B} (g : A -> B) l : combine (map g l) l = map (fun x => (g x, x)) l.
Proof. induction l as [|a l IH]; cbn; [reflexivity|]. rewrite IH. reflexivity. Qed.


Lemma moment_ok types iidx nbs mu nu zi : pyget types iidx = Ok zi -> (forall nb, In nb nbs -> is_ok (weight' types mu zi nb)) ->
  exists t, moment' types iidx nbs mu nu = Ok t /\ rank t = nu /\
  forall i, at_ t i = sum_over (fun nb => okval (weight' types mu zi nb) * at_ (angular nu (snd nb)) i) nbs.
Proof.
  intros Z H. unfold moment_of. rewrite Z. cbn [bind]. rewrite mapM_okval by exact H. cbn [bind]. rewrite combine_map.
  eexists. split; [reflexivity|]. split; [reflexivity|]. intros i. cbn [at_]. rewrite map_map. reflexivity.
Qed.
Lemma moment_err types iidx nbs mu nu : ~ is_ok (moment' types iidx nbs mu nu) ->
  pyget types iidx = Err IndexError \/ exists zi, pyget types iidx = Ok zi /\ exists nb, In nb nbs /\ ~ is_ok (weight' types mu zi nb).
Proof.
  unfold moment_of. destruct (pyget types iidx) as [zi|e] eqn:E; cbn [bind].
  - intros H. right. exists zi. split; [reflexivity|]. induction nbs as [|nb nbs IH]; [cbn in H; exfalso; apply H; exact I|].
    cbn [mapM] in H. destruct (weight' types mu zi nb) as [w|e] eqn:W.
    + destruct IH as (nb' & I' & N').
      { intros K. apply H. cbn [bind]. destruct (mapM (weight' types mu zi) nbs); [exact I|exact K]. }
      exists nb'. split; [right; exact I'|exact N'].
    + exists nb. split; [left; reflexivity|]. rewrite W. intros [].
  - intros _. left. assert (e = IndexError) as ->; [|reflexivity].
    unfold pyget, get in E. destruct (iidx <? 0)%Z; [destruct (_ <? 0)%Z|]; try (injection E as <-; reflexivity);
      destruct (nth_error _ _); try discriminate; injection E as <-; reflexivity.
Qed.

Lemma sum_over_perm {A} (f : A -> R) l l' : Permutation l l' -> sum_over f l = sum_over f l'.
Proof. intros P. unfold sum_over. induction P; cbn; lra. Qed.

Lemma moment_perm types iidx nbs nbs' mu nu : Permutation nbs nbs' -> same_ok (moment' types iidx nbs mu nu) (moment' types iidx nbs' mu nu).
Proof.
  intros P. destruct (moment' types iidx nbs mu nu) as [t|e] eqn:E1.
  - unfold moment_of in E1. destruct (pyget types iidx) as [zi|] eqn:Z; [|discriminate]. cbn [bind] in E1.
    destruct (mapM (weight' types mu zi) nbs) as [ws|] eqn:W; [|discriminate]. pose proof (mapM_okinv _ _ _ W) as OK1.
    assert (OK2 : forall nb, In nb nbs' -> is_ok (weight' types mu zi nb)). { intros nb I0. apply OK1. eapply Permutation_in; [symmetry; exact P|exact I0]. }
    destruct (moment_ok types iidx nbs mu nu zi Z OK1) as (t1 & T1 & R1 & A1).
    destruct (moment_ok types iidx nbs' mu nu zi Z OK2) as (t2 & T2 & R2 & A2).
    assert (t1 = t) as ->. { unfold moment_of in T1. rewrite Z in T1. cbn [bind] in T1. rewrite W in T1. congruence. }
    rewrite T2. split; [congruence|]. intros i. rewrite A1, A2. apply sum_over_perm. exact P.
  - destruct (moment' types iidx nbs' mu nu) as [t'|] eqn:E2; [|exact I]. exfalso.
    destruct (moment_err types iidx nbs mu nu) as [Z|(zi & Z & nb & I0 & N)].
    + rewrite E1. intros [].
    + unfold moment_of in E2. rewrite Z in E2. discriminate.
    + apply N. unfold moment_of in E2. rewrite Z in E2. cbn [bind] in E2. destruct (mapM (weight' types mu zi) nbs') as [ws|] eqn:W; [|discriminate].
      exact (mapM_okinv _ _ _ W nb (Permutation_in _ P I0)).
Qed.
Lemma value_perm types iidx nbs nbs' c v : Permutation nbs nbs' -> value' types iidx nbs c = Ok v <-> value' types iidx nbs' c = Ok v.
Proof. intros P. apply value_same. intros mu nu. apply moment_perm. exact P. Qed.

End D.

(** *** Finite sums over neighbours *)
Lemma sum_over_ext {A} (f g : A -> R) l : (forall x, In x l -> f x = g x) -> sum_over f l = sum_over g l.
Proof. intros H. unfold sum_over. induction l as [|a l IH]; cbn; [reflexivity|]. rewrite H by (left; reflexivity). rewrite IH; [reflexivity|]. intros x I0. apply H. right. exact I0. Qed.
Lemma sum_over_app {A} (f : A -> R) l l' : sum_over f (l ++ l') = sum_over f l + sum_over f l'.
Proof. unfold sum_over. induction l as [|a l IH]; cbn; [ring|]. rewrite IH. ring. Qed.
Lemma sum_over_map {A B} (f : B -> R) (g : A -> B) l : sum_over f (map g l) = sum_over (fun x => f (g x)) l.
Proof. unfold sum_over. rewrite map_map. reflexivity. Qed.
Lemma sum_over_zero {A} (l : list A) : sum_over (fun _ => 0) l = 0.
Proof. unfold sum_over. induction l as [|a l IH]; cbn; [reflexivity|]. rewrite IH. ring. Qed.
Lemma sum_over_scale {A} x (f : A -> R) l : sum_over (fun a => x * f a) l = x * sum_over f l.
Proof. unfold sum_over. induction l as [|a l IH]; cbn; [ring|]. rewrite IH. ring. Qed.
Lemma sum_over_scale_r {A} x (f : A -> R) l : sum_over (fun a => f a * x) l = sum_over f l * x.
Proof. unfold sum_over. induction l as [|a l IH]; cbn; [ring|]. rewrite IH. ring. Qed.
Lemma sum_idx_over {A} n (f : A -> list nat -> R) l : sum_idx n (fun k => sum_over (fun a => f a k) l) = sum_over (fun a => sum_idx n (f a)) l.
Proof.
  unfold sum_over. induction l as [|a l IH]; cbn; [apply sum_idx_zero|]. rewrite sum_idx_plus. rewrite IH. reflexivity.
Qed.

(** *** The coefficient table *)
Lemma nth_flat_const {A B} (f : A -> list B) n l a b x : (forall y, In y l -> length (f y) = n) -> nth_error l a = Some x -> (b < n)%nat ->
  nth_error (flat_map f l) (a * n + b) = nth_error (f x) b.
Proof.
  revert a; induction l as [|y l IH]; intros [|a] H E L; cbn in E; try discriminate; cbn [flat_map Nat.mul].
  - injection E as ->. rewrite nth_error_app1 by (rewrite H by (left; reflexivity); exact L). reflexivity.
  - rewrite nth_error_app2 by (rewrite H by (left; reflexivity); lia). rewrite H by (left; reflexivity).
    replace (n + a * n + b - n)%nat with (a * n + b)%nat by lia. apply IH; [intros z Z; apply H; right; exact Z|exact E|exact L].
Qed.
Lemma flat_const_length {A B} (f : A -> list B) n l : (forall y, In y l -> length (f y) = n) -> length (flat_map f l) = (length l * n)%nat.
Proof. induction l as [|y l IH]; intros H; cbn; [reflexivity|]. rewrite app_length, H by (left; reflexivity). rewrite IH; [lia|]. intros z Z. apply H. right. exact Z. Qed.
Lemma nth_error_seq' n k : (k < n)%nat -> nth_error (seq 0 n) k = Some k.
Proof. intros L. rewrite (nth_error_nth' _ 0%nat) by (rewrite seq_length; exact L). rewrite seq_nth by exact L. reflexivity. Qed.

Lemma coeff_lookup row nmus nt mu zi zj : (zi < nt)%nat -> (zj < nt)%nat -> (mu < nmus)%nat ->
  coeff_row (coeff_table row nmus nt) (coeff_index (Z.of_nat nt) mu (Z.of_nat zi) (Z.of_nat zj)) = Ok (row mu zi zj).
Proof.
  intros Hi Hj Hm. unfold coeff_row, coeff_index.
  replace (Z.of_nat mu * Z.of_nat nt * Z.of_nat nt + Z.of_nat zi * Z.of_nat nt + Z.of_nat zj)%Z with (Z.of_nat (mu * (nt * nt) + (zi * nt + zj))) by lia.
  destruct (Z.ltb_spec (Z.of_nat (mu * (nt * nt) + (zi * nt + zj))) 0); [lia|]. rewrite Nat2Z.id. apply get_some. unfold coeff_table.
  assert (I1 : forall m y, In y (seq 0 nt) -> length (map (row m y) (seq 0 nt)) = nt) by (intros; rewrite map_length, seq_length; reflexivity).
  assert (B : (zi * nt + zj < nt * nt)%nat) by nia.
  rewrite (nth_flat_const _ (nt * nt) _ mu _ mu).
  - rewrite (nth_flat_const _ nt _ zi _ zi); [|apply I1|apply nth_error_seq'; exact Hi|exact Hj].
    rewrite nth_error_map, nth_error_seq' by exact Hj. reflexivity.
  - intros y _. rewrite (flat_const_length _ nt) by apply I1. rewrite seq_length. reflexivity.
  - apply nth_error_seq'. exact Hm.
  - exact B.
Qed.
Lemma coeff_missing row nmus nt mu zi zj : (zi < nt)%nat -> (zj < nt)%nat -> (nmus <= mu)%nat ->
  coeff_row (coeff_table row nmus nt) (coeff_index (Z.of_nat nt) mu (Z.of_nat zi) (Z.of_nat zj)) = Err IndexError.
Proof.
  intros Hi Hj Hm. unfold coeff_row, coeff_index.
  replace (Z.of_nat mu * Z.of_nat nt * Z.of_nat nt + Z.of_nat zi * Z.of_nat nt + Z.of_nat zj)%Z with (Z.of_nat (mu * (nt * nt) + (zi * nt + zj))) by lia.
  destruct (Z.ltb_spec (Z.of_nat (mu * (nt * nt) + (zi * nt + zj))) 0); [lia|]. rewrite Nat2Z.id. apply get_bad. unfold coeff_table.
  rewrite (flat_const_length _ (nt * nt)).
  - rewrite seq_length. nia.
  - intros y _. rewrite (flat_const_length _ nt) by (intros; rewrite map_length, seq_length; reflexivity). rewrite seq_length. reflexivity.
Qed.
Lemma coeff_index_inj nt mu mu' zi zj zi' zj' : (0 <= zi < nt)%Z -> (0 <= zj < nt)%Z -> (0 <= zi' < nt)%Z -> (0 <= zj' < nt)%Z ->
  coeff_index nt mu zi zj = coeff_index nt mu' zi' zj' -> mu = mu' /\ zi = zi' /\ zj = zj'.
Proof.
  unfold coeff_index. intros A B C D E.
  assert (E2 : ((Z.of_nat mu * nt + zi) * nt + zj = (Z.of_nat mu' * nt + zi') * nt + zj')%Z) by lia.
  assert (Z.of_nat mu * nt + zi = Z.of_nat mu' * nt + zi')%Z by nia.
  assert (zj = zj') by nia. assert (Z.of_nat mu = Z.of_nat mu') by nia. lia.
Qed.

(** *** The radial factor *)
Lemma dot_rows_weighted c q : length c = length q -> dot_rows c q = Ok (weighted c q).
Proof. revert q; induction c as [|x c IH]; intros [|y q] L; cbn in L; try lia; cbn [dot_rows weighted]; [reflexivity|]. rewrite IH by lia. reflexivity. Qed.
Lemma weighted_scale c (f : nat -> R) s l : weighted c (map (fun n => f n * s) l) = s * weighted c (map f l).
Proof. revert l; induction c as [|x c IH]; intros [|y l]; cbn [map weighted]; try ring. rewrite IH. ring. Qed.
Lemma weighted_zero c l : weighted c (map (fun _ : nat => 0) l) = 0.
Proof. revert l; induction c as [|x c IH]; intros [|y l]; cbn [map weighted]; try ring. rewrite IH. ring. Qed.

Lemma radial_weight rc rs c d : weighted c (map (fun n => RF rc rs n d) (seq 0 (length c))) = radial_sum T rc rs c (vnorm d).
Proof.
  unfold radial_sum, RF, Q. destruct (Rlt_dec (vnorm d) rs) as [A|A]; [apply weighted_zero|].
  destruct (Rlt_dec (vnorm d) rc) as [B|B]; [|apply weighted_zero].
  rewrite (weighted_scale c (fun n => T n (to_unit rc rs (vnorm d)))). f_equal. unfold switch_result. cbv zeta.
  destruct (Rlt_dec (vnorm d) rs); [lra|]. destruct (Rlt_dec (vnorm d) rc); [ring|lra].
Qed.

Lemma pyget_nat l k z : nth_error l k = Some z -> pyget (species l) (Z.of_nat k) = Ok (Z.of_nat z).
Proof.
  intros E. unfold pyget. destruct (Z.ltb_spec (Z.of_nat k) 0); [lia|]. rewrite Nat2Z.id. apply get_some.
  unfold species. rewrite nth_error_map, E. reflexivity.
Qed.

Section W.
Variables (size nmus nt : nat) (rc rs : R) (old : tables) (row : nat -> nat -> nat -> list R).
Hypothesis SZ : sized size old.
Variables (types : list nat) (i : nat) (nbs : list (nat * vec)).
Hypothesis WP : well_posed size nmus nt row types i nbs.
Notation W := (weight size rc rs old (Z.of_nat nt) (coeff_table row nmus nt) (species types)).
Notation M := (moment_of size rc rs old (Z.of_nat nt) (coeff_table row nmus nt) (species types) (Z.of_nat i)).
Notation V := (basis_value size rc rs old (Z.of_nat nt) (coeff_table row nmus nt) (species types) (Z.of_nat i)).
Notation P := (product_of size rc rs old (Z.of_nat nt) (coeff_table row nmus nt) (species types) (Z.of_nat i)).
Notation STEP := (product_step size rc rs old (Z.of_nat nt) (coeff_table row nmus nt) (species types) (Z.of_nat i)).
Notation w := (factor T rc rs row types i).

Lemma type_at k : (k < length types)%nat -> nth_error types k = Some (nth k types 0%nat) /\ (nth k types 0%nat < nt)%nat.
Proof.
  intros L. destruct WP as (_ & H & _ & _). split; [apply nth_error_nth'; exact L|]. rewrite Forall_forall in H. apply H. apply nth_In. exact L.
Qed.
Lemma norm_vnorm d : sqrt (norm2 d) = vnorm d.
Proof. unfold vnorm, norm2, dot. f_equal. ring. Qed.

Lemma weight_wp mu nb : (mu < nmus)%nat -> (fst nb < length types)%nat ->
  W mu (Z.of_nat (nth i types 0%nat)) (Z.of_nat (fst nb), snd nb) = Ok (w mu nb).
Proof.
  intros Hm Hn. destruct WP as (L & _ & Hi & _). destruct (type_at i Hi) as [Ei Bi]. destruct (type_at (fst nb) Hn) as [En Bn].
  unfold weight. cbn [fst snd]. rewrite (pyget_nat _ _ _ En). cbn [bind]. rewrite coeff_lookup by assumption. cbn [bind].
  rewrite radial_forward_ok by exact SZ. cbn [bind fst].
  rewrite dot_rows_weighted by (rewrite map_length, seq_length; apply L; assumption).
  unfold factor. rewrite norm_vnorm. rewrite <- (L mu _ _ Hm Bi Bn). rewrite radial_weight. reflexivity.
Qed.
Lemma centre_wp : pyget (species types) (Z.of_nat i) = Ok (Z.of_nat (nth i types 0%nat)).
Proof. destruct WP as (_ & _ & Hi & _). apply pyget_nat. apply type_at. exact Hi. Qed.

Lemma moment_wp mu nu : (mu < nmus)%nat -> exists t, M (listed nbs) mu nu = Ok t /\ rank t = nu /\
  forall k, length k = nu -> at_ t k = sum_over (fun nb => w mu nb * vprod (snd nb) k) nbs.
Proof.
  intros Hm. pose proof WP as (_ & _ & _ & Hn). rewrite Forall_forall in Hn.
  destruct (moment_ok size rc rs old (Z.of_nat nt) (coeff_table row nmus nt) (species types) (Z.of_nat i) (listed nbs) mu nu _ centre_wp) as (t & E & R0 & A).
  - intros nb I0. unfold listed in I0. apply in_map_iff in I0. destruct I0 as (x & <- & I0). rewrite weight_wp by (try apply Hn; assumption). exact I.
  - exists t. split; [exact E|]. split; [exact R0|]. intros k L. rewrite A. unfold listed. rewrite sum_over_map. apply sum_over_ext.
    intros x I0. rewrite weight_wp by (try apply Hn; assumption). cbn [okval snd]. rewrite angular_at by exact L. reflexivity.
Qed.

(** How many directions are left. *)
Lemma rank_wp c d x t0 : Forall (fun p => (fst p < nmus)%nat) c -> x = Ok t0 -> rank t0 = d ->
  match fold_left (STEP (listed nbs)) c x, fold_left MtpLevelModel.contract_step (map snd c) (Ok d) with
  | Ok t, Ok r => rank t = r | Err e, Err e' => e = e' | _, _ => False end.
Proof.
  revert d x t0; induction c as [|[mu nu] c IH]; intros d x t0 F -> R0; [exact R0|].
  inversion F as [|? ? Hm F']; subst. cbn [fst] in Hm. cbn [fold_left map snd].
  destruct (moment_wp mu nu Hm) as (m & E & Rm & _).
  unfold product_step at 2. cbn [bind fst snd]. rewrite E. cbn [bind]. rewrite Rm.
  change (MtpLevelModel.contract_step (Ok (rank t0)) nu) with (if (nu <=? rank t0)%nat then Ok (rank t0 - nu)%nat else if (rank t0 =? 0)%nat then Ok nu else Err AssertionError).
  destruct (Nat.leb_spec nu (rank t0)) as [G|G].
  - eapply IH; [exact F'|reflexivity|]. unfold tensordot. cbn [rank]. lia.
  - destruct (Nat.eqb_spec (rank t0) 0) as [Z|Z].
    + eapply IH; [exact F'|reflexivity|]. cbn [tscale rank]. exact Rm.
    + assert (G1 : forall l, fold_left (STEP (listed nbs)) l (Err AssertionError) = Err AssertionError) by (induction l as [|p l IHl]; [reflexivity|exact IHl]).
      assert (G2 : forall l, fold_left MtpLevelModel.contract_step l (Err AssertionError) = Err AssertionError) by (induction l as [|p l IHl]; [reflexivity|exact IHl]).
      rewrite G1, G2. reflexivity.
Qed.
Lemma leaves_dims l d r : leaves d l r <-> fold_left MtpLevelModel.contract_step l (Ok d) = Ok r.
Proof.
  revert d; induction l as [|n l IH]; intros d.
  - cbn. split; [intros H; inversion H; reflexivity|intros [= ->]; constructor].
  - cbn [fold_left]. unfold MtpLevelModel.contract_step at 2. cbn [bind]. destruct (Nat.leb_spec n d) as [G|G].
    + rewrite <- IH. split; [intros H; inversion H; subst; [assumption|lia]|intros H; constructor; assumption].
    + destruct (Nat.eqb_spec d 0) as [Z|Z].
      * rewrite <- IH. subst d. split; [intros H; inversion H; subst; [lia|assumption]|intros H; apply leaves_new; assumption].
      * assert (G2 : forall l, fold_left MtpLevelModel.contract_step l (Err AssertionError) = Err AssertionError) by (induction l0 as [|p l0 IHl]; [reflexivity|exact IHl]).
        rewrite G2. split; [intros H; inversion H; subst; lia|discriminate].
Qed.
Lemma value_defined c : Forall (fun p => (fst p < nmus)%nat) c -> ((exists v, V (listed nbs) c = Ok v) <-> leaves 0 (map snd c) 0).
Proof.
  intros F. rewrite leaves_dims. pose proof (rank_wp c 0 (Ok (of_scalar 1)) (of_scalar 1) F eq_refl eq_refl) as H.
  unfold basis_value, product_of. destruct (fold_left (STEP (listed nbs)) c _) as [t|e]; destruct (fold_left _ (map snd c) _) as [r|e']; try contradiction; cbn [bind].
  - rewrite H. destruct (Nat.eqb_spec r 0) as [->|N]; split.
    + reflexivity.
    + intros _. eexists. reflexivity.
    + intros [v E]. discriminate.
    + intros [= ->]. contradiction.
  - split; [intros [v E]; discriminate|discriminate].
Qed.

(** The value of a group. *)
Definition inner (p : nat * nat) (a : nat * vec) : R := sum_over (fun b => w (fst p) b * dot (snd a) (snd b) ^ snd p) nbs.

Lemma group_steps rest t (g : nat * vec -> R) : Forall (fun p => (fst p < nmus)%nat) rest -> rank t = list_sum (map snd rest) ->
  (forall k, length k = rank t -> at_ t k = sum_over (fun a => g a * vprod (snd a) k) nbs) ->
  exists t', fold_left (STEP (listed nbs)) rest (Ok t) = Ok t' /\ rank t' = 0%nat /\ at_ t' [] = sum_over (fun a => g a * prod_over (fun p => inner p a) rest) nbs.
Proof.
  revert t g; induction rest as [|[mu nu] rest IH]; intros t g F R0 A.
  - cbn in R0. exists t. split; [reflexivity|]. split; [exact R0|]. rewrite A by (rewrite R0; reflexivity). apply sum_over_ext. intros a _.
    unfold prod_over. cbn. reflexivity.
  - inversion F as [|? ? Hm F']; subst. cbn [fst] in Hm. cbn [map snd] in R0. change (list_sum (nu :: map snd rest)) with (nu + list_sum (map snd rest))%nat in R0.
    destruct (moment_wp mu nu Hm) as (m & E & Rm & Am). cbn [fold_left]. unfold product_step at 2. cbn [bind fst snd]. rewrite E. cbn [bind]. rewrite Rm.
    destruct (Nat.leb_spec nu (rank t)) as [G|G]; [|lia].
    destruct (IH (tensordot t m nu) (fun a => g a * inner (mu, nu) a) F') as (t' & E' & R' & A').
    + unfold tensordot. cbn [rank]. lia.
    + unfold tensordot. cbn [rank at_]. intros k L.
      assert (L2 : length k = (rank t - nu)%nat) by lia. rewrite (firstn_all2 k) by lia. rewrite (skipn_all2 k) by lia.
      transitivity (sum_idx nu (fun j => sum_over (fun a => g a * vprod (snd a) k * sum_over (fun b => w mu b * (vprod (snd a) j * vprod (snd b) j)) nbs) nbs)).
      * apply sum_idx_ext. intros j Lj. rewrite A by (rewrite app_length; lia). rewrite app_nil_r, Am by exact Lj.
        rewrite <- sum_over_scale_r. apply sum_over_ext. intros a _. rewrite vprod_app, <- !sum_over_scale. apply sum_over_ext. intros b _. ring.
      * rewrite sum_idx_over. apply sum_over_ext. intros a _. rewrite sum_idx_scale. rewrite sum_idx_over. unfold inner. cbn [fst snd].
        rewrite <- !sum_over_scale, <- sum_over_scale_r. apply sum_over_ext. intros b _. rewrite sum_idx_scale, vprod_dot. ring.
    + exists t'. split; [exact E'|]. split; [exact R'|]. rewrite A'. apply sum_over_ext. intros a _. unfold prod_over. cbn [map fold_right]. ring.
Qed.

Lemma group_ok mu rest : (mu < nmus)%nat -> Forall (fun p => (fst p < nmus)%nat) rest ->
  V (listed nbs) ((mu, list_sum (map snd rest)) :: rest) = Ok (group_value w nbs mu rest).
Proof.
  intros Hm F. set (nu := list_sum (map snd rest)). destruct (moment_wp mu nu Hm) as (m & E & Rm & Am).
  assert (S1 : exists t, STEP (listed nbs) (Ok (of_scalar 1)) (mu, nu) = Ok t /\ rank t = nu /\ forall k, length k = nu -> at_ t k = sum_over (fun nb => w mu nb * vprod (snd nb) k) nbs).
  { unfold product_step. cbn [bind fst snd of_scalar rank at_]. rewrite E. cbn [bind]. rewrite Rm. destruct (Nat.leb_spec nu 0) as [G|G].
    - eexists. split; [reflexivity|]. unfold tensordot. cbn [rank at_ of_scalar]. split; [lia|]. intros k L.
      destruct k; [|cbn in L; lia]. assert (Z : nu = 0%nat) by lia. rewrite Z. cbn [sum_idx app skipn Nat.sub]. rewrite Am by (rewrite Z; reflexivity). apply Rmult_1_l.
    - eexists. split; [reflexivity|]. split; [exact Rm|]. intros k L. cbn [tscale at_]. rewrite Am by exact L. ring. }
  destruct S1 as (t & E1 & R1 & A1).
  destruct (group_steps rest t (w mu) F) as (t' & E2 & R2 & A2); [exact R1|intros k L; apply A1; rewrite L; exact R1|].
  unfold basis_value, product_of. cbn [fold_left]. rewrite E1, E2. cbn [bind]. rewrite R2. cbn [Nat.eqb]. rewrite A2. reflexivity.
Qed.

(** Padding. *)
Lemma pads_moment n mu nu : (mu < nmus)%nat -> 0 < rs -> same_ok (M (listed nbs ++ repeat padding n) mu nu) (M (listed nbs) mu nu).
Proof.
  intros Hm Hr. pose proof WP as (_ & Ht & Hi & Hn). rewrite Forall_forall in Hn.
  assert (WL : W mu (Z.of_nat (nth i types 0%nat)) padding = Ok 0).
  { destruct WP as (L & _). assert (KE : exists k, k = (length types - 1)%nat) by (eexists; reflexivity). destruct KE as [k KE]. assert (Hk : (k < length types)%nat) by lia.
    destruct (type_at i Hi) as [Ei Bi]. destruct (type_at k Hk) as [Ek Bk].
    unfold weight, padding. cbn [fst snd].
    assert (PG : pyget (species types) (-1) = Ok (Z.of_nat (nth k types 0%nat))).
    { unfold pyget. cbn [Z.ltb Z.compare]. unfold species. rewrite !map_length.
      destruct (Z.ltb_spec (-1 + Z.of_nat (length types)) 0); [lia|].
      replace (Z.to_nat (-1 + Z.of_nat (length types))) with k by lia. apply get_some. rewrite nth_error_map, Ek. reflexivity. }
    rewrite PG. cbn [bind]. rewrite coeff_lookup by assumption. cbn [bind]. rewrite radial_forward_ok by exact SZ. cbn [bind fst].
    rewrite dot_rows_weighted by (rewrite map_length, seq_length; apply L; assumption).
    rewrite <- (L mu _ _ Hm Bi Bk). rewrite radial_weight. unfold radial_sum.
    assert (N0 : vnorm (0, 0, 0) = 0). { unfold vnorm. cbn. rewrite !Rmult_0_l, !Rplus_0_l. apply sqrt_0. }
    rewrite N0. destruct (Rlt_dec 0 rs); [reflexivity|lra]. }
  destruct (moment_ok size rc rs old (Z.of_nat nt) (coeff_table row nmus nt) (species types) (Z.of_nat i) (listed nbs) mu nu _ centre_wp) as (t & E & R0 & A).
  { intros nb I0. unfold listed in I0. apply in_map_iff in I0. destruct I0 as (x & <- & I0). rewrite weight_wp by (try apply Hn; assumption). exact I. }
  destruct (moment_ok size rc rs old (Z.of_nat nt) (coeff_table row nmus nt) (species types) (Z.of_nat i) (listed nbs ++ repeat padding n) mu nu _ centre_wp) as (t2 & E2 & R2 & A2).
  { intros nb I0. apply in_app_or in I0. destruct I0 as [I0|I0].
    - unfold listed in I0. apply in_map_iff in I0. destruct I0 as (x & <- & I0). rewrite weight_wp by (try apply Hn; assumption). exact I.
    - apply repeat_spec in I0. subst nb. rewrite WL. exact I. }
  rewrite E, E2. split; [congruence|]. intros k. rewrite A, A2, sum_over_app.
  assert (Z : sum_over (fun nb => okval (W mu (Z.of_nat (nth i types 0%nat)) nb) * at_ (angular nu (snd nb)) k) (repeat padding n) = 0).
  { rewrite (sum_over_ext _ (fun _ => 0)). 
    - apply sum_over_zero.
    - intros nb I0. apply repeat_spec in I0. subst nb. rewrite WL. cbn. ring. }
  rewrite Z. ring.
Qed.

Lemma pads_value n c v : Forall (fun p => (fst p < nmus)%nat) c -> 0 < rs -> V (listed nbs ++ repeat padding n) c = Ok v <-> V (listed nbs) c = Ok v.
Proof.
  intros F Hr. unfold basis_value, product_of.
  assert (G : forall l x y, Forall (fun p => (fst p < nmus)%nat) l -> same_ok x y -> same_ok (fold_left (STEP (listed nbs ++ repeat padding n)) l x) (fold_left (STEP (listed nbs)) l y)).
  { induction l as [|p l IH]; intros x y Fl H; [exact H|]. inversion Fl; subst. cbn [fold_left]. apply IH; [assumption|]. apply step_same; [exact H|apply pads_moment; assumption]. }
  specialize (G c (Ok (of_scalar 1)) (Ok (of_scalar 1)) F (conj eq_refl (fun _ => eq_refl))).
  destruct (fold_left _ c _) as [a|e], (fold_left _ c _) as [b|e']; cbn in G; try contradiction; cbn [bind]; [|split; discriminate].
  destruct G as [R0 H0]. rewrite R0, H0. reflexivity.
Qed.
End W.

Lemma group_formula : exists V : nat -> R -> R, chebyshev V /\
  forall size nmus nt rc rs old row types i nbs mu rest, sized size old -> well_posed size nmus nt row types i nbs ->
  (mu < nmus)%nat -> Forall (fun p => (fst p < nmus)%nat) rest ->
  basis_value size rc rs old (Z.of_nat nt) (coeff_table row nmus nt) (species types) (Z.of_nat i) (listed nbs) ((mu, list_sum (map snd rest)) :: rest)
  = Ok (group_value (factor V rc rs row types i) nbs mu rest).
Proof. exists T. split; [exact T_cos|]. intros. apply group_ok; assumption. Qed.

(** *** Cases *)
Lemma ex_quarter_turn : keeps_length ((0, -1, 0), (1, 0, 0), (0, 0, 1)) /\ apply_map ((0, -1, 0), (1, 0, 0), (0, 0, 1)) (3, 4, 5) = (-4, 3, 5).
Proof. split; [intros [[x y] z]; unfold apply_map; vec_unfold; ring|]. unfold apply_map. vec_unfold. f_equal; [f_equal|]; ring. Qed.
Lemma ex_mirror : keeps_length ((-1, 0, 0), (0, 1, 0), (0, 0, 1)) /\ ~ keeps_length ((2, 0, 0), (0, 1, 0), (0, 0, 1)).
Proof.
  split; [intros [[x y] z]; unfold apply_map; vec_unfold; ring|]. intros H. specialize (H (1, 0, 0)). unfold apply_map in H. vec_unfold. lra.
Qed.

Definition one_row : nat -> nat -> nat -> list R := fun _ _ _ => [1].
Lemma ex_posed : well_posed 1 1 1 one_row [0; 0; 0]%nat 0%nat [(1%nat, (5, 0, 0)); (2%nat, (3, 4, 0))].
Proof. split; [reflexivity|]. split; [repeat constructor|]. split; [cbn; lia|]. repeat constructor; cbn; lia. Qed.
(** Two neighbours at distance 5 with cutoffs 6 and 4: each has the factor 1/2. *)
Lemma ex_factor V r : chebyshev V -> sqrt (norm2 r) = 5 -> factor V 6 4 one_row [0; 0; 0]%nat 0%nat 0%nat (1%nat, r) = 1 / 2.
Proof.
  intros C N. unfold factor, radial_sum, one_row. cbn [snd]. rewrite N. destruct (Rlt_dec 5 4); [lra|]. destruct (Rlt_dec 5 6); [|lra].
  cbn [length seq map weighted]. assert (V0 : V 0%nat (to_unit 6 4 5) = 1).
  { unfold to_unit. replace ((2 * 5 - (6 + 4)) / (6 - 4)) with (cos (PI / 2)) by (rewrite cos_PI2; field). rewrite C. cbn [INR]. rewrite Rmult_0_l. apply cos_0. }
  rewrite V0. field.
Qed.
Lemma ex_value : basis_value 1 6 4 ([0], [0], [0]) 1 [[1]] [0; 0; 0]%Z 0 [(1%Z, (5, 0, 0)); (2%Z, (3, 4, 0))] [(0%nat, 1%nat); (0%nat, 1%nat)] = Ok 20.
Proof.
  pose proof (group_ok 1 1 1 6 4 ([0], [0], [0]) one_row (conj eq_refl (conj eq_refl eq_refl)) [0; 0; 0]%nat 0 [(1%nat, (5, 0, 0)); (2%nat, (3, 4, 0))] ex_posed 0 [(0, 1)%nat]) as H.
  assert (A1 : sqrt (norm2 (5, 0, 0)) = 5). { replace (norm2 (5, 0, 0)) with (5 * 5) by (vec_unfold; ring). apply sqrt_square. lra. }
  assert (A2 : sqrt (norm2 (3, 4, 0)) = 5). { replace (norm2 (3, 4, 0)) with (5 * 5) by (vec_unfold; ring). apply sqrt_square. lra. }
  assert (F1 : forall n, factor T 6 4 one_row [0; 0; 0]%nat 0 0 (n, (5, 0, 0)) = 1 / 2) by (intros n; apply (ex_factor T (5, 0, 0) T_cos A1)).
  assert (F2 : forall n, factor T 6 4 one_row [0; 0; 0]%nat 0 0 (n, (3, 4, 0)) = 1 / 2) by (intros n; apply (ex_factor T (3, 4, 0) T_cos A2)).
  assert (E : group_value (factor T 6 4 one_row [0; 0; 0]%nat 0) [(1%nat, (5, 0, 0)); (2%nat, (3, 4, 0))] 0 [(0, 1)%nat] = 20).
  { unfold group_value, sum_over, prod_over. cbn [map fold_right fst snd pow]. rewrite !F1, !F2. vec_unfold. field. }
  rewrite E in H. apply H; [lia|]. repeat constructor.
Qed.
(** With no inner cutoff a padding entry counts as a neighbour at the centre. *)
Lemma ex_pad_counts : basis_value 1 6 0 ([0], [0], [0]) 1 [[1]] [0]%Z 0 [] [(0%nat, 0%nat)] = Ok 0 /\
  basis_value 1 6 0 ([0], [0], [0]) 1 [[1]] [0]%Z 0 [padding] [(0%nat, 0%nat)] = Ok 1.
Proof.
  split; [unfold basis_value, product_of; cbn [fold_left]; unfold product_step, moment_of; cbn; f_equal; ring|].
  unfold basis_value, product_of. cbn [fold_left]. unfold product_step, moment_of. cbn [bind pyget Z.ltb Z.compare get nth_error Z.to_nat mapM].
  assert (E : weight 1 6 0 ([0], [0], [0]) 1 [[1]] [0%Z] (fst (0%nat, 0%nat)) 0 padding = Ok 1).
  { unfold weight, padding. cbn [fst snd]. replace (pyget [0%Z] (-1)) with (@Ok Z 0%Z) by reflexivity. cbn [bind].
    replace (coeff_row [[1]] (coeff_index 1 0 0 0)) with (Ok [1]) by reflexivity. cbn [bind].
    rewrite radial_forward_ok by (repeat split). cbn [bind fst]. rewrite dot_rows_weighted by reflexivity.
    change (seq 0 1) with (seq 0 (length [1])). rewrite radial_weight. unfold radial_sum.
    assert (N0 : vnorm (0, 0, 0) = 0). { unfold vnorm. cbn. rewrite !Rmult_0_l, !Rplus_0_l. apply sqrt_0. }
    rewrite N0. destruct (Rlt_dec 0 0); [lra|]. destruct (Rlt_dec 0 6); [|lra]. cbn [length seq map weighted]. rewrite T_0. f_equal. field. }
  rewrite E. cbn [bind combine]. cbn [fst snd rank of_scalar Nat.leb bind Nat.sub at_ tensordot map sum_idx app skipn firstn add_up fold_right angular Nat.add Nat.eqb]. f_equal. ring.
Qed.
(** Species numbers that are not below the number of species share coefficient rows. *)
Lemma ex_shared : coeff_index 2 0 0 2 = coeff_index 2 0 1 0.
Proof. reflexivity. Qed.
(** Three rank-two moments leave two directions over. *)
Lemma ex_leaves : leaves 0 [2; 1; 1]%nat 0 /\ ~ leaves 0 [2; 2; 2]%nat 0 /\ leaves 0 [2; 2; 0]%nat 0.
Proof.
  split; [|split].
  - apply leaves_new; [lia|]. apply leaves_use; [lia|]. apply leaves_use; [cbn; lia|]. constructor.
  - intros H. rewrite leaves_dims in H. cbn in H. discriminate.
  - apply leaves_new; [lia|]. apply leaves_use; [lia|]. apply leaves_use; [cbn; lia|]. constructor.
Qed.

Lemma coeff_negative row nmus nt zj : (zj < nt)%nat ->
  coeff_row (coeff_table row nmus nt) (coeff_index (Z.of_nat nt) 0 (-1) (Z.of_nat zj)) = Err IndexError /\
  forall mu, (mu < nmus)%nat ->
  coeff_row (coeff_table row nmus nt) (coeff_index (Z.of_nat nt) (S mu) (-1) (Z.of_nat zj)) = Ok (row mu (nt - 1)%nat zj).
Proof.
  intros Hj. split.
  - unfold coeff_row, coeff_index. destruct (Z.ltb_spec (Z.of_nat 0 * Z.of_nat nt * Z.of_nat nt + -1 * Z.of_nat nt + Z.of_nat zj)%Z 0); [reflexivity|lia].
  - intros mu Hm. rewrite <- (coeff_lookup row nmus nt mu (nt - 1) zj) by lia. f_equal. unfold coeff_index. nia.
Qed.
