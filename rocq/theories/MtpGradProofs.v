(** Lemmas about the gradients of the moment tensor descriptor. *)
From Verif Require Export MtpGradModel MtpGradSpec.
From Verif Require Import DataModel RDeriv SeProofs SeSpec ChebProofs MtpValueProofs.
From Verif Require DataProofs.
From Coq Require Import Lra Lia.
Local Open Scope R_scope.

(** *** The angular part *)
(** Rate of change of a product of components. *)
Fixpoint dvprod (r v : vec) (i : list nat) : R :=
  match i with [] => 0 | a :: i' => component v a * vprod r i' + component r a * dvprod r v i' end.
Lemma dvprod_snoc r v i a : dvprod r v (i ++ [a]) = dvprod r v i * component r a + vprod r i * component v a.
Proof. induction i as [|b i IH]; cbn [app dvprod vprod]; [ring|]. rewrite IH, vprod_app. cbn [vprod]. ring. Qed.
Lemma vprod_dl p x v i : moves x p v -> derivable_pt_lim (fun t => vprod (p t) i) x (dvprod (p x) v i).
Proof.
  intros (Hx & Hy & Hz). induction i as [|a i IH]; cbn [vprod dvprod]; [apply dl_const|].
  apply (dl_mult (fun t => component (p t) a) (fun t => vprod (p t) i)); [|exact IH].
  destruct a as [|[|a]]; cbn [component]; assumption.
Qed.

Lemma angular_back_rate nu r v g : dot (angular_back nu r g) v = sum_idx nu (fun i => at_ g i * dvprod r v i).
Proof.
  destruct nu as [|m]; [cbn; vec_unfold; ring|]. unfold angular_back. revert g; induction m as [|m IH]; intros g.
  - cbn [angular_back_from sum_idx dvprod vprod]. unfold as_vec, component. vec_unfold. ring.
  - cbn [angular_back_from]. set (gl := tensordot_back_l _ _ _ _). set (gr := tensordot_back_r _ _ _ _).
    replace (dot (vadd (angular_back_from m r gl) (as_vec gr)) v) with (dot (angular_back_from m r gl) v + dot (as_vec gr) v) by vec_ring.
    rewrite IH. clear IH. replace (S (S m)) with (S m + 1)%nat by lia. rewrite sum_idx_split.
    assert (Er : forall a, at_ gr [a] = sum_idx (S m) (fun j => at_ g (j ++ [a]) * vprod r j)).
    { intros a. unfold gr, tensordot_back_r. cbn [at_ skipn firstn]. rewrite angular_rank, Nat.sub_0_r. apply sum_idx_ext. intros j L.
      rewrite app_nil_r, angular_at by exact L. reflexivity. }
    assert (Ed : dot (as_vec gr) v = sum_idx (S m) (fun j => vprod r j * (at_ g (j ++ [0%nat]) * vx v + at_ g (j ++ [1%nat]) * vy v + at_ g (j ++ [2%nat]) * vz v))).
    { unfold dot, as_vec. unfold vx at 1, vy at 1, vz at 1. cbn [fst snd]. rewrite !Er, <- !sum_idx_scale_r, <- !sum_idx_plus. apply sum_idx_ext. intros j _. ring. }
    rewrite Ed, <- sum_idx_plus. apply sum_idx_ext. intros i L. unfold gl, tensordot_back_l. cbn [at_]. rewrite angular_rank, Nat.sub_0_r.
    rewrite (firstn_all2 i) by lia. rewrite (skipn_all2 i) by lia. cbn [of_vec rank Nat.sub sum_idx app hd at_].
    rewrite !dvprod_snoc. cbn [component]. ring.
Qed.

(** *** The radial part along a path *)
Definition row_dot (row : list R) (v : vec) : R := entry 0 row * vx v + entry 1 row * vy v + entry 2 row * vz v.
Lemma norm2_dl p x v : moves x p v -> derivable_pt_lim (fun t => vx (p t) ^ 2 + vy (p t) ^ 2 + vz (p t) ^ 2) x (2 * dot (p x) v).
Proof.
  intros (Hx & Hy & Hz). eapply dl_val; cycle 1.
  { apply dl_plus; [apply dl_plus|]; [apply (dl_pow (fun t => vx (p t)) x (vx v) 2), Hx|apply (dl_pow (fun t => vy (p t)) x (vy v) 2), Hy|apply (dl_pow (fun t => vz (p t)) x (vz v) 2), Hz]. }
  cbn [INR Nat.pred pow]. unfold dot. ring.
Qed.
Lemma RF_moves rc rs n p x v : rs < rc -> regular rs (p x) -> moves x p v ->
  derivable_pt_lim (fun t => RF rc rs n (p t)) x (row_dot (RG rc rs n (p x)) v).
Proof.
  intros H [N Z] M. rewrite norm_vnorm in N. pose proof (norm2_dl p x v M) as F.
  assert (E : row_dot (RG rc rs n (p x)) v = if Req_EM_T (vnorm (p x)) 0 then 0 else DQ rc rs n (vnorm (p x)) * (dot (p x) v / vnorm (p x))).
  { unfold row_dot, RG, dot. destruct (Req_EM_T (vnorm (p x)) 0) as [E|E]; unfold entry; cbn [nth]; [ring|field; exact E]. }
  rewrite E. unfold RF. destruct (Req_EM_T (vnorm (p x)) 0) as [E0|E0].
  - apply vnorm_0 in E0. specialize (Z E0). apply dl_continuous in F.
    assert (Z2 : 0 < rs * rs) by nra. destruct (F (rs * rs) Z2) as (d & D0 & F').
    apply (dl_loc (fun _ => 0) _ _ _ d); [exact D0| |apply dl_const]. intros t Ht. unfold Q.
    destruct (Rlt_dec (vnorm (p t)) rs) as [L|L]; [reflexivity|]. exfalso. apply L. clear L.
    destruct (Req_EM_T x t) as [->|Nt].
    + rewrite E0. replace (vnorm (0, 0, 0)) with 0; [exact Z|]. symmetry. apply vnorm_0. reflexivity.
    + assert (K := F' t (conj (conj I Nt) Ht)). cbn in K. unfold R_dist in K. rewrite E0 in K. vec_unfold.
      unfold vnorm, vx, vy, vz. rewrite <- (sqrt_square rs) by lra. apply sqrt_lt_1_alt.
      match type of K with Rabs (?a - ?b) < _ => replace (a - b) with (fst (fst (p t)) ^ 2 + snd (fst (p t)) ^ 2 + snd (p t) ^ 2) in K by (cbn; ring) end.
      apply Rabs_def2 in K. split; [|lra]. nra.
  - assert (Nd : p x <> (0, 0, 0)) by (intros K; apply E0; apply vnorm_0; exact K). pose proof (vnorm_pos _ Nd) as P.
    assert (P2 : 0 < vx (p x) ^ 2 + vy (p x) ^ 2 + vz (p x) ^ 2). { apply sqrt_lt_0_alt. rewrite sqrt_0. exact P. }
    apply (dl_comp (fun t => vnorm (p t)) (Q rc rs n)); [|apply Q_dl; assumption].
    unfold vnorm in *. eapply dl_val; cycle 1; [apply (dl_sqrt (fun t => vx (p t) ^ 2 + vy (p t) ^ 2 + vz (p t) ^ 2) x _ F); exact P2|].
    cbn beta. field. exact E0.
Qed.

(** *** Weighted sums *)
Lemma weighted_dl x fs ds (F : nat -> R -> R) (dF : nat -> R) : Forall2 (fun f d => derivable_pt_lim f x d) fs ds ->
  (forall n, derivable_pt_lim (F n) x (dF n)) -> forall l,
  derivable_pt_lim (fun t => weighted (map (fun f : R -> R => f t) fs) (map (fun n => F n t) l)) x
    (weighted ds (map (fun n => F n x) l) + weighted (map (fun f : R -> R => f x) fs) (map dF l)).
Proof.
  intros H D0. induction H as [|f d fs ds Hf H IH]; intros [|n l]; cbn [map weighted]; try (rewrite Rplus_0_r; apply dl_const).
  eapply dl_val; cycle 1; [apply dl_plus; [apply (dl_mult f (F n) x _ _ Hf (D0 n))|apply IH]|]. ring.
Qed.
Lemma weighted_comm a b : weighted a b = weighted b a.
Proof. revert b; induction a as [|x a IH]; intros [|y b]; cbn [weighted]; try reflexivity. rewrite IH. ring. Qed.
Lemma weighted_map_scale k a b : weighted (map (fun x => k * x) a) b = k * weighted a b.
Proof. revert b; induction a as [|x a IH]; intros [|y b]; cbn [map weighted]; try ring. rewrite IH. ring. Qed.
Lemma weighted_row_dot c (f : nat -> list R) v l :
  weighted c (map (fun n => entry 0 (f n)) l) * vx v + weighted c (map (fun n => entry 1 (f n)) l) * vy v + weighted c (map (fun n => entry 2 (f n)) l) * vz v =
  weighted c (map (fun n => row_dot (f n) v) l).
Proof. revert l; induction c as [|x c IH]; intros [|n l]; cbn [map weighted]; try ring. rewrite <- IH. unfold row_dot. ring. Qed.
Lemma weighted_sums {A} (F : nat -> A -> R) (d : list R) l js :
  weighted (map (fun n => add_up (map (F n) l)) js) d = sum_over (fun s => weighted (map (fun n => F n s) js) d) l.
Proof.
  revert d; induction js as [|j js IH]; intros d; [cbn [map weighted]; rewrite sum_over_zero; reflexivity|].
  destruct d as [|y d]; [cbn [map weighted]; rewrite sum_over_zero; reflexivity|]. cbn [map weighted]. rewrite IH.
  assert (K : forall m : list A, add_up (map (F j) m) * y + sum_over (fun s => weighted (map (fun n => F n s) js) d) m = sum_over (fun s => F j s * y + weighted (map (fun n => F n s) js) d) m).
  { induction m as [|s m IHm]; unfold sum_over, add_up in *; cbn [map fold_right]; [ring|]. rewrite <- IHm. ring. }
  apply K.
Qed.
Lemma sum_over_plus {A} (f g : A -> R) l : sum_over (fun a => f a + g a) l = sum_over f l + sum_over g l.
Proof. unfold sum_over. induction l as [|a l IH]; cbn [map fold_right]; [ring|]. rewrite IH. ring. Qed.
Lemma sum_over_swap {A B} (f : A -> B -> R) l m : sum_over (fun a => sum_over (f a) m) l = sum_over (fun b => sum_over (fun a => f a b) l) m.
Proof.
  induction l as [|a l IH]; [change (0 = sum_over (fun _ => 0) m); rewrite sum_over_zero; reflexivity|].
  change (sum_over (f a) m + sum_over (fun a => sum_over (f a) m) l = sum_over (fun b => f a b + sum_over (fun a => f a b) l) m).
  rewrite IH, sum_over_plus. reflexivity.
Qed.

Lemma F2_length {A B} (P : A -> B -> Prop) l m : Forall2 P l m -> length l = length m.
Proof. induction 1 as [|a b l m H F IH]; cbn; [reflexivity|]. rewrite IH. reflexivity. Qed.

(** *** Everything along a path *)
Section Path.
Variables (size nmus nt : nat) (rc rs : R) (old : tables).
Variables (types : list Z) (iidx : Z).
Variables (cs : list (list (R -> R))) (ds : list (list R)) (nbs : list (Z * (R -> vec))) (vs : list vec) (x : R).
Hypothesis Hr : rs < rc.
Hypothesis Ho : sized size old.
Hypothesis Hf : fits size nmus nt (rows_at x cs) types iidx (nbs_at x nbs).
Hypothesis Hg : Forall (fun nb => regular rs (snd nb)) (nbs_at x nbs).
Hypothesis Hv : Forall2 (fun nb v => moves x (snd nb) v) nbs vs.
Hypothesis Hd : Forall2 (Forall2 (fun f d => derivable_pt_lim f x d)) cs ds.

Definition typ (j : Z) : Z := match pyget types j with Ok z => z | Err _ => 0%Z end.
Lemma typ_ok j : present types j -> pyget types j = Ok (typ j) /\ (0 <= typ j < Z.of_nat nt)%Z.
Proof.
  intros P. destruct (DataProofs.pyget_in types j P) as [z E]. unfold typ. rewrite E. split; [reflexivity|].
  destruct Hf as (_ & _ & Ft & _). rewrite Forall_forall in Ft. apply Ft.
  unfold pyget, get in E. destruct (j <? 0)%Z; [destruct (_ <? 0)%Z; [discriminate|]|];
    destruct (nth_error _ _) as [y|] eqn:N; inversion E; subst; exact (nth_error_In _ _ N).
Qed.
Definition idx (mu : nat) (j : Z) : Z := coeff_index (Z.of_nat nt) mu (typ iidx) (typ j).
Lemma cs_shape : length cs = (nmus * nt * nt)%nat /\ Forall (fun c => length c = size) cs.
Proof.
  destruct Hf as (L & F & _). unfold rows_at in *. rewrite map_length in L. split; [exact L|].
  rewrite Forall_forall in *. intros c I. specialize (F _ (in_map (map (fun f : R -> R => f x)) _ _ I)). rewrite map_length in F. exact F.
Qed.
Lemma idx_ok mu j : (mu < nmus)%nat -> present types j -> (0 <= idx mu j)%Z /\ (Z.to_nat (idx mu j) < length cs)%nat.
Proof.
  intros Hm P. destruct (typ_ok j P) as [_ T2]. destruct (typ_ok iidx) as [_ T1]; [apply Hf|]. rewrite (proj1 cs_shape).
  unfold idx, coeff_index. assert (B : (0 <= Z.of_nat mu * Z.of_nat nt * Z.of_nat nt + typ iidx * Z.of_nat nt + typ j < Z.of_nat nmus * Z.of_nat nt * Z.of_nat nt)%Z).
  { assert (A1 : (typ iidx * Z.of_nat nt + typ j < Z.of_nat nt * Z.of_nat nt)%Z) by nia.
    assert (A2 : (Z.of_nat mu * (Z.of_nat nt * Z.of_nat nt) + Z.of_nat nt * Z.of_nat nt <= Z.of_nat nmus * (Z.of_nat nt * Z.of_nat nt))%Z) by nia. nia. }
  split; [lia|]. lia.
Qed.
Definition crow (mu : nat) (j : Z) : list (R -> R) := nth (Z.to_nat (idx mu j)) cs [].
Definition drow (mu : nat) (j : Z) : list R := nth (Z.to_nat (idx mu j)) ds [].
Lemma crow_ok mu j t : (mu < nmus)%nat -> present types j ->
  coeff_row (rows_at t cs) (coeff_index (Z.of_nat nt) mu (typ iidx) (typ j)) = Ok (map (fun f => f t) (crow mu j)) /\ length (crow mu j) = size /\
  Forall2 (fun f d => derivable_pt_lim f x d) (crow mu j) (drow mu j).
Proof.
  intros Hm P. destruct (idx_ok mu j Hm P) as [I0 I1]. split; [|split].
  - unfold coeff_row. fold (idx mu j). destruct (Z.ltb_spec (idx mu j) 0); [lia|].
    rewrite (get_ok _ _ (map (fun f => f t) [])) by (unfold rows_at; rewrite map_length; exact I1). unfold rows_at, crow. rewrite map_nth. reflexivity.
  - destruct cs_shape as [_ F]. rewrite Forall_forall in F. apply F. apply nth_In. exact I1.
  - unfold crow, drow. clear -Hd I1. revert I1. generalize (Z.to_nat (idx mu j)). induction Hd as [|c d cs' ds' H H' IH]; intros [|k] L; cbn in *; try lia; [exact H|]. apply IH; [exact H'|lia].
Qed.

Definition qs (p : vec) : list R := map (fun n => RF rc rs n p) (seq 0 size).
Definition w (mu : nat) (nb : Z * (R -> vec)) (t : R) : R := weighted (map (fun f => f t) (crow mu (fst nb))) (qs (snd nb t)).
Definition dw (mu : nat) (nb : Z * (R -> vec)) (v : vec) : R :=
  weighted (drow mu (fst nb)) (qs (snd nb x)) + weighted (map (fun f => f x) (crow mu (fst nb))) (map (fun n => row_dot (RG rc rs n (snd nb x)) v) (seq 0 size)).
Lemma w_dl mu nb v : (mu < nmus)%nat -> present types (fst nb) -> regular rs (snd nb x) -> moves x (snd nb) v ->
  derivable_pt_lim (w mu nb) x (dw mu nb v).
Proof.
  intros Hm P G M. destruct (crow_ok mu (fst nb) x Hm P) as (_ & _ & D0).
  apply (weighted_dl x _ _ (fun n t => RF rc rs n (snd nb t)) (fun n => row_dot (RG rc rs n (snd nb x)) v)); [exact D0|].
  intros n. apply RF_moves; assumption.
Qed.
Lemma nbs_present nb : In nb nbs -> present types (fst nb).
Proof. intros I. destruct Hf as (_ & _ & _ & _ & F). rewrite Forall_forall in F. exact (F _ (in_map (fun nb => (fst nb, snd nb x)) _ _ I)). Qed.
Lemma weight_at mu nb t : (mu < nmus)%nat -> present types (fst nb) ->
  weight size rc rs old (Z.of_nat nt) (rows_at t cs) types mu (typ iidx) (fst nb, snd nb t) = Ok (w mu nb t).
Proof.
  intros Hm P. unfold weight. cbn [fst snd]. rewrite (proj1 (typ_ok _ P)). cbn [bind]. destruct (crow_ok mu (fst nb) t Hm P) as (E & L & _). rewrite E. cbn [bind].
  rewrite radial_forward_ok by exact Ho. cbn [bind fst]. apply dot_rows_weighted. rewrite !map_length, seq_length. exact L.
Qed.

(** The moments. *)
Definition Mt (mu nu : nat) (t : R) : tensor :=
  match moment_of size rc rs old (Z.of_nat nt) (rows_at t cs) types iidx (nbs_at t nbs) mu nu with Ok m => m | Err _ => of_scalar 0 end.
Lemma Mt_ok mu nu t : (mu < nmus)%nat ->
  moment_of size rc rs old (Z.of_nat nt) (rows_at t cs) types iidx (nbs_at t nbs) mu nu = Ok (Mt mu nu t) /\ rank (Mt mu nu t) = nu /\
  forall k, length k = nu -> at_ (Mt mu nu t) k = sum_over (fun nb => w mu nb t * vprod (snd nb t) k) nbs.
Proof.
  intros Hm. destruct (typ_ok iidx) as [T1 _]; [apply Hf|].
  destruct (moment_ok size rc rs old (Z.of_nat nt) (rows_at t cs) types iidx (nbs_at t nbs) mu nu _ T1) as (m & E & R0 & A).
  { intros nb I0. unfold nbs_at in I0. apply in_map_iff in I0. destruct I0 as (y & <- & I0). rewrite (weight_at mu y t Hm (nbs_present y I0)). exact I. }
  unfold Mt. rewrite E. split; [reflexivity|]. split; [exact R0|]. intros k L. rewrite A. unfold nbs_at. rewrite sum_over_map. apply sum_over_ext.
  intros y I0. rewrite (weight_at mu y t Hm (nbs_present y I0)). cbn [okval snd]. rewrite angular_at by exact L. reflexivity.
Qed.
Definition dM (mu : nat) (k : list nat) : R :=
  sum_over (fun p => dw mu (fst p) (snd p) * vprod (snd (fst p) x) k + w mu (fst p) x * dvprod (snd (fst p) x) (snd p) k) (combine nbs vs).
Lemma nbs_facts : Forall2 (fun nb v => moves x (snd nb) v /\ present types (fst nb) /\ regular rs (snd nb x)) nbs vs.
Proof.
  assert (P : forall nb, In nb nbs -> present types (fst nb)) by exact nbs_present.
  assert (G : forall nb, In nb nbs -> regular rs (snd nb x)).
  { intros nb I. rewrite Forall_forall in Hg. exact (Hg _ (in_map (fun nb => (fst nb, snd nb x)) _ _ I)). }
  clear -Hv P G. induction Hv as [|nb v l m H0 H1 IH]; constructor.
  - split; [exact H0|]. split; [apply P|apply G]; left; reflexivity.
  - apply IH; [exact H1| |]; intros y I; [apply P|apply G]; right; exact I.
Qed.
Lemma Mt_dl mu nu k : (mu < nmus)%nat -> length k = nu -> derivable_pt_lim (fun t => at_ (Mt mu nu t) k) x (dM mu k).
Proof.
  intros Hm L. apply (dl_ext (fun t => sum_over (fun nb => w mu nb t * vprod (snd nb t) k) nbs)).
  { intros t. symmetry. apply Mt_ok; assumption. }
  unfold dM. pose proof nbs_facts as F. pose proof (fun nb v => w_dl mu nb v Hm) as W. clear -F W. induction F as [|nb v l m (H0 & H1 & H2) F IH].
  - unfold sum_over. cbn. apply dl_const.
  - unfold sum_over in *. cbn [combine map fold_right fst snd]. apply dl_plus; [|exact IH].
    apply (dl_mult (w mu nb) (fun t => vprod (snd nb t) k)); [apply W|apply vprod_dl]; assumption.
Qed.

(** One neighbour backwards. *)
Definition share_rate (s : share) (v : vec) : R := dot (fst s) v + weighted (snd (snd s)) (nth (Z.to_nat (fst (snd s))) ds []).
Definition proper (s : share) : Prop := length (snd (snd s)) = size /\ (0 <= fst (snd s))%Z /\ (Z.to_nat (fst (snd s)) < length cs)%nat.
Lemma neighbour_back_rate mu nu g nb v : (mu < nmus)%nat -> present types (fst nb) ->
  exists s, neighbour_back size rc rs old (Z.of_nat nt) (rows_at x cs) types mu nu (typ iidx) g (fst nb, snd nb x) = Ok s /\ proper s /\
  share_rate s v = sum_idx nu (fun i => at_ g i * (dw mu nb v * vprod (snd nb x) i + w mu nb x * dvprod (snd nb x) v i)).
Proof.
  intros Hm P. unfold neighbour_back. cbn [fst snd]. rewrite (proj1 (typ_ok _ P)). cbn [bind].
  destruct (crow_ok mu (fst nb) x Hm P) as (E & L & _). rewrite E. cbn [bind].
  rewrite radial_forward_ok by exact Ho. cbn [bind fst snd].
  rewrite dot_rows_weighted by (rewrite !map_length, seq_length; exact L). cbn [bind].
  set (gw := sum_idx nu _). rewrite backward_ok.
  2:{ rewrite !map_length. exact L. }
  2:{ intros n. unfold RG. destruct (Req_EM_T _ _); reflexivity. }
  cbn [bind seq map]. eexists. split; [reflexivity|]. split.
  - unfold proper. cbn [fst snd]. rewrite !map_length, seq_length. split; [reflexivity|]. exact (idx_ok mu (fst nb) Hm P).
  - unfold share_rate. cbn [fst snd]. fold (idx mu (fst nb)). fold (drow mu (fst nb)).
    match goal with |- dot (vadd ?a ?b) v + _ = _ => replace (dot (vadd a b) v) with (dot a v + dot b v) by vec_ring end.
    rewrite angular_back_rate. cbn [tscale at_]. unfold dot at 1. unfold vx at 1, vy at 1, vz at 1. cbn [fst snd].
    rewrite (weighted_row_dot _ (fun n => RG rc rs n (snd nb x)) v). rewrite !weighted_map_scale.
    fold (qs (snd nb x)). rewrite (weighted_comm (qs (snd nb x))).
    assert (Eg : gw = sum_idx nu (fun i => at_ g i * vprod (snd nb x) i)).
    { unfold gw. apply sum_idx_ext. intros i Li. rewrite angular_at by exact Li. reflexivity. }
    transitivity (gw * dw mu nb v + w mu nb x * sum_idx nu (fun i => at_ g i * dvprod (snd nb x) v i)).
    + rewrite <- (sum_idx_scale nu (w mu nb x)). unfold dw. rewrite Rmult_plus_distr_l.
      replace (sum_idx nu (fun i => weighted (map (fun f => f x) (crow mu (fst nb))) (qs (snd nb x)) * at_ g i * dvprod (snd nb x) v i))
        with (sum_idx nu (fun i => w mu nb x * (at_ g i * dvprod (snd nb x) v i))) by (apply sum_idx_ext; intros i _; unfold w; ring).
      ring.
    + rewrite Eg, Rmult_comm, <- !sum_idx_scale, <- sum_idx_plus. apply sum_idx_ext. intros i _. ring.
Qed.
Definition Rate (ss : list share) : R := sum_over (fun p => share_rate (fst p) (snd p)) (combine ss vs).
Lemma moment_back_rate mu nu g : (mu < nmus)%nat ->
  exists ss, moment_back size rc rs old (Z.of_nat nt) (rows_at x cs) types iidx (nbs_at x nbs) mu nu g = Ok ss /\ length ss = length nbs /\ Forall proper ss /\
  Rate ss = sum_idx nu (fun i => at_ g i * dM mu i).
Proof.
  intros Hm. destruct (typ_ok iidx) as [T1 _]; [apply Hf|]. unfold moment_back. rewrite T1. cbn [bind].
  unfold Rate, dM. pose proof nbs_facts as F. pose proof (fun nb v => neighbour_back_rate mu nu g nb v Hm) as N. clear -F N. induction F as [|nb v l m (H0 & H1 & H2) F IH].
  - exists []. split; [reflexivity|]. split; [reflexivity|]. split; [constructor|]. unfold sum_over. cbn [combine map fold_right].
    transitivity (sum_idx nu (fun _ => 0)); [symmetry; apply sum_idx_zero|]. apply sum_idx_ext. intros i _. ring.
  - destruct IH as (ss & E & L & P & S0). destruct (N nb v H1) as (s & Es & Ps & Ss).
    exists (s :: ss). cbn [nbs_at map mapM]. unfold nbs_at in E. rewrite Es. cbn [bind]. rewrite E. cbn [bind]. split; [reflexivity|].
    split; [cbn; lia|]. split; [constructor; assumption|]. unfold sum_over in *. cbn [combine map fold_right fst snd]. rewrite S0, Ss, <- sum_idx_plus.
    apply sum_idx_ext. intros i _. ring.
Qed.

(** The running product. *)
Definition STEPx (t : R) := product_step size rc rs old (Z.of_nat nt) (rows_at t cs) types iidx (nbs_at t nbs).
Lemma product_rate seed c d (tau : R -> tensor) (dtau : list nat -> R) : Forall (fun p => (fst p < nmus)%nat) c -> leaves d (map snd c) 0 ->
  (forall t, rank (tau t) = d) -> (forall i, length i = d -> derivable_pt_lim (fun t => at_ (tau t) i) x (dtau i)) ->
  exists g ls fT, product_back size rc rs old (Z.of_nat nt) (rows_at x cs) types iidx (nbs_at x nbs) seed (tau x) c = Ok (g, ls) /\
  (forall t, fold_left (STEPx t) c (Ok (tau t)) = Ok (fT t)) /\ (forall t, rank (fT t) = 0%nat) /\
  Forall (fun ss => length ss = length nbs /\ Forall proper ss) ls /\
  derivable_pt_lim (fun t => seed * at_ (fT t) []) x (sum_idx d (fun i => at_ g i * dtau i) + sum_over Rate ls).
Proof.
  revert d tau dtau. induction c as [|[mu nu] c IH]; intros d tau dtau F Lv Rk Dt.
  - cbn [map] in Lv. inversion Lv; subst. exists (of_scalar seed), [], tau. cbn [product_back fold_left]. rewrite Rk. cbn [Nat.eqb].
    split; [reflexivity|]. split; [reflexivity|]. split; [exact Rk|]. split; [constructor|].
    cbn [sum_idx of_scalar at_]. unfold sum_over. cbn [map fold_right]. rewrite Rplus_0_r. apply dl_scal. apply Dt. reflexivity.
  - inversion F as [|? ? Hm F']; subst. cbn [fst] in Hm. cbn [map snd] in Lv.
    assert (Mo := fun t => Mt_ok mu nu t Hm). assert (Md := fun k => Mt_dl mu nu k Hm).
    destruct (Nat.leb_spec nu d) as [G|G].
    + assert (Lv' : leaves (d - nu) (map snd c) 0) by (inversion Lv; subst; [assumption|lia]).
      destruct (IH (d - nu)%nat (fun t => tensordot (tau t) (Mt mu nu t) nu)
        (fun i => sum_idx nu (fun k => dtau (i ++ k) * at_ (Mt mu nu x) k + at_ (tau x) (i ++ k) * dM mu k)) F' Lv') as (g & ls & fT & E1 & E2 & E3 & E4 & E5).
      { intros t. unfold tensordot. cbn [rank]. rewrite Rk, (proj1 (proj2 (Mo t))). lia. }
      { intros i Li. unfold tensordot. cbn [at_].
        apply (dl_ext (fun t => sum_idx nu (fun k => at_ (tau t) (i ++ k) * at_ (Mt mu nu t) k))).
        { intros t. rewrite Rk. apply sum_idx_ext. intros k Lk. rewrite (firstn_all2 i) by lia. rewrite (skipn_all2 i) by lia. rewrite app_nil_r. reflexivity. }
        assert (K : forall n (f : R -> list nat -> R) (df : list nat -> R), (forall k, length k = n -> derivable_pt_lim (fun t => f t k) x (df k)) -> derivable_pt_lim (fun t => sum_idx n (f t)) x (sum_idx n df)).
        { clear. induction n as [|n IHn]; intros f df H; cbn [sum_idx]; [apply H; reflexivity|].
          apply dl_plus; [apply dl_plus|]; apply (IHn (fun t i => f t (_ :: i)) (fun i => df (_ :: i))); intros k Lk; apply H; cbn; lia. }
        apply (K nu (fun t k => at_ (tau t) (i ++ k) * at_ (Mt mu nu t) k)). intros k Lk.
        apply (dl_mult (fun t => at_ (tau t) (i ++ k)) (fun t => at_ (Mt mu nu t) k)); [apply Dt; rewrite app_length; lia|apply Md; exact Lk]. }
      destruct (moment_back_rate mu nu (tensordot_back_r (tau x) (Mt mu nu x) g nu) Hm) as (ss & B1 & B2 & B3 & B4).
      exists (tensordot_back_l (tau x) (Mt mu nu x) g nu), (ss :: ls), fT.
      cbn [product_back fst snd]. rewrite (proj1 (Mo x)). cbn [bind]. rewrite (proj1 (proj2 (Mo x))), Rk.
      destruct (Nat.leb_spec nu d); [|lia]. rewrite E1. cbn [bind fst snd]. rewrite B1. cbn [bind].
      split; [reflexivity|]. split.
      { intros t. cbn [fold_left]. rewrite <- E2. f_equal. unfold STEPx, product_step. cbn [bind fst snd]. rewrite (proj1 (Mo t)). cbn [bind].
        rewrite (proj1 (proj2 (Mo t))), Rk. destruct (Nat.leb_spec nu d); [reflexivity|lia]. }
      split; [exact E3|]. split; [constructor; [split; assumption|exact E4]|].
      eapply dl_val; [|exact E5]. unfold sum_over at 2. cbn [map fold_right]. fold (sum_over Rate ls). rewrite B4.
      rewrite <- Rplus_assoc. f_equal. replace d with ((d - nu) + nu)%nat at 2 by lia. rewrite sum_idx_split.
      unfold tensordot_back_r, tensordot_back_l. cbn [at_]. rewrite Rk, (proj1 (proj2 (Mo x))), Nat.sub_diag. cbn [sum_idx].
      transitivity (sum_idx (d - nu) (fun i => sum_idx nu (fun k => at_ g i * at_ (Mt mu nu x) k * dtau (i ++ k)) + sum_idx nu (fun k => at_ g i * at_ (tau x) (i ++ k) * dM mu k))).
      { apply sum_idx_ext. intros i Li. rewrite <- sum_idx_scale, <- sum_idx_plus. apply sum_idx_ext. intros k Lk. ring. }
      rewrite sum_idx_plus. f_equal.
      * apply sum_idx_ext. intros i Li. apply sum_idx_ext. intros k Lk. rewrite firstn_app, skipn_app, Li, Nat.sub_diag.
        rewrite <- Li, firstn_all, skipn_all. cbn [firstn skipn app]. rewrite !app_nil_r. reflexivity.
      * rewrite sum_idx_swap. apply sum_idx_ext. intros k Lk. rewrite <- sum_idx_scale_r. apply sum_idx_ext. intros i Li.
        rewrite <- Lk, firstn_all, skipn_all, app_nil_r. ring.
    + assert (d = 0%nat) as -> by (inversion Lv; subst; lia).
      assert (Lv' : leaves nu (map snd c) 0) by (inversion Lv; subst; [lia|assumption]).
      destruct (IH nu (fun t => tscale (at_ (tau t) []) (Mt mu nu t)) (fun i => dtau [] * at_ (Mt mu nu x) i + at_ (tau x) [] * dM mu i) F' Lv') as (g & ls & fT & E1 & E2 & E3 & E4 & E5).
      { intros t. cbn [tscale rank]. apply Mo. }
      { intros i Li. cbn [tscale at_]. apply (dl_mult (fun t => at_ (tau t) []) (fun t => at_ (Mt mu nu t) i)); [apply Dt; reflexivity|apply Md; exact Li]. }
      destruct (moment_back_rate mu nu (tscale (at_ (tau x) []) g) Hm) as (ss & B1 & B2 & B3 & B4).
      exists (of_scalar (sum_idx (rank (Mt mu nu x)) (fun i => at_ g i * at_ (Mt mu nu x) i))), (ss :: ls), fT.
      cbn [product_back fst snd]. rewrite (proj1 (Mo x)). cbn [bind]. rewrite (proj1 (proj2 (Mo x))), Rk.
      destruct (Nat.leb_spec nu 0); [lia|]. cbn [Nat.eqb]. rewrite E1. cbn [bind fst snd]. rewrite B1. cbn [bind].
      split; [reflexivity|]. split.
      { intros t. cbn [fold_left]. rewrite <- E2. f_equal. unfold STEPx, product_step. cbn [bind fst snd]. rewrite (proj1 (Mo t)). cbn [bind].
        rewrite (proj1 (proj2 (Mo t))), Rk. destruct (Nat.leb_spec nu 0); [lia|reflexivity]. }
      split; [exact E3|]. split; [constructor; [split; assumption|exact E4]|].
      eapply dl_val; [|exact E5]. unfold sum_over at 2. cbn [map fold_right]. fold (sum_over Rate ls). rewrite B4.
      rewrite <- Rplus_assoc. f_equal. cbn [sum_idx of_scalar tscale at_]. rewrite <- sum_idx_scale_r, <- sum_idx_plus. apply sum_idx_ext. intros i _. ring.
Qed.

Lemma basis_rate seed c : complete nmus c ->
  exists ls f, basis_back size rc rs old (Z.of_nat nt) (rows_at x cs) types iidx (nbs_at x nbs) seed c = Ok ls /\
  (forall t, basis_value size rc rs old (Z.of_nat nt) (rows_at t cs) types iidx (nbs_at t nbs) c = Ok (f t)) /\
  Forall (fun ss => length ss = length nbs /\ Forall proper ss) ls /\
  derivable_pt_lim (fun t => seed * f t) x (sum_over Rate ls).
Proof.
  intros [F Lv]. destruct (product_rate seed c 0 (fun _ => of_scalar 1) (fun _ => 0) F Lv) as (g & ls & fT & E1 & E2 & E3 & E4 & E5).
  { reflexivity. }
  { intros i _. cbn [of_scalar at_]. apply dl_const. }
  exists ls, (fun t => at_ (fT t) []). unfold basis_back. rewrite E1. cbn [bind snd]. split; [reflexivity|]. split.
  { intros t. unfold basis_value, product_of. fold (STEPx t). rewrite E2. cbn [bind]. rewrite E3. reflexivity. }
  split; [exact E4|]. cbn [sum_idx] in E5. eapply dl_val; [|exact E5]. ring.
Qed.

(** *** Adding up *)
Lemma vs_length : length vs = length nbs.
Proof. symmetry. exact (F2_length _ _ _ Hv). Qed.
Lemma ds_length : length ds = length cs.
Proof. symmetry. exact (F2_length _ _ _ Hd). Qed.
Lemma along_zero n (l : list vec) : along (repeat (0, 0, 0) n) l = 0.
Proof.
  revert l; induction n as [|n IH]; intros [|v l]; try reflexivity. unfold along, sum_over in *. cbn [repeat combine map fold_right fst snd].
  rewrite IH. vec_unfold. ring.
Qed.
Lemma coord_grad_length ls : Forall (fun ss => length ss = length nbs /\ Forall proper ss) ls -> length (coord_grad (length nbs) ls) = length nbs.
Proof.
  induction 1 as [|ss ls [L _] F IH]; unfold coord_grad in *; cbn [fold_right]; [apply repeat_length|]. rewrite map_length, combine_length.
  transitivity (Nat.min (length nbs) (length nbs)); [f_equal; [exact L|exact IH]|apply Nat.min_id].
Qed.
Lemma along_add (ss : list share) (acc l : list vec) : length ss = length acc ->
  along (map (fun p => vadd (fst (fst p)) (snd p)) (combine ss acc)) l = sum_over (fun p => dot (fst (fst p)) (snd p)) (combine ss l) + along acc l.
Proof.
  revert acc l; induction ss as [|s ss IH]; intros [|a acc] l L; cbn in L; try discriminate; [unfold along, sum_over; cbn; ring|].
  destruct l as [|v l]; [unfold along, sum_over; cbn; ring|]. unfold along, sum_over in *. cbn [combine map fold_right fst snd]. rewrite IH by lia. vec_unfold. ring.
Qed.
Lemma sum_over_concat {A} (f : A -> R) ls : sum_over f (concat ls) = sum_over (sum_over f) ls.
Proof. induction ls as [|l ls IH]; [reflexivity|]. cbn [concat]. rewrite sum_over_app, IH. reflexivity. Qed.
Lemma sum_over_fst {A B} (f : A -> R) (l : list A) (m : list B) : length l = length m -> sum_over (fun p => f (fst p)) (combine l m) = sum_over f l.
Proof.
  revert m; induction l as [|a l IH]; intros [|b m] L; cbn in L; try discriminate; [reflexivity|].
  unfold sum_over in *. cbn [combine map fold_right fst]. rewrite IH by lia. reflexivity.
Qed.
Definition crate (s : share) : R := weighted (snd (snd s)) (nth (Z.to_nat (fst (snd s))) ds []).
Lemma coord_total ls : Forall (fun ss => length ss = length nbs /\ Forall proper ss) ls ->
  sum_over Rate ls = along (coord_grad (length nbs) ls) vs + sum_over crate (concat ls).
Proof.
  intros F. rewrite sum_over_concat. induction F as [|ss ls [L P] F IH]; [unfold coord_grad; cbn [fold_right]; rewrite along_zero; unfold sum_over; cbn; ring|].
  pose proof (coord_grad_length ls F) as Lc.
  change (coord_grad (length nbs) (ss :: ls)) with (map (fun p => vadd (fst (fst p)) (snd p)) (combine ss (coord_grad (length nbs) ls))).
  rewrite along_add by congruence.
  change (sum_over Rate (ss :: ls)) with (Rate ss + sum_over Rate ls). change (sum_over (sum_over crate) (ss :: ls)) with (sum_over crate ss + sum_over (sum_over crate) ls).
  rewrite IH. unfold Rate, share_rate. rewrite sum_over_plus. pose proof (sum_over_fst crate ss vs ltac:(rewrite vs_length; exact L)) as K. unfold crate at 1 in K. rewrite K.
  match goal with |- ?a + ?b + (?c + ?d) = _ => change (a + b + (c + d) = a + c + (b + d)) end. ring.
Qed.
Lemma pick_one (F : nat -> R) k n : (k < n)%nat -> sum_over (fun j => if (Z.of_nat k =? Z.of_nat j)%Z then F j else 0) (seq 0 n) = F k.
Proof.
  intros L. assert (K : forall n s, sum_over (fun j => if (Z.of_nat k =? Z.of_nat j)%Z then F j else 0) (seq s n) = if ((s <=? k) && (k <? s + n))%nat then F k else 0).
  { clear. induction n as [|n IH]; intros s; unfold sum_over in *; cbn [seq map fold_right].
    - destruct (Nat.leb_spec s k), (Nat.ltb_spec k (s + 0)); cbn [andb]; try lia; reflexivity.
    - rewrite IH. destruct (Z.eqb_spec (Z.of_nat k) (Z.of_nat s)) as [E|E].
      + assert (k = s) by lia. subst. destruct (Nat.leb_spec (S s) s); [lia|]. destruct (Nat.leb_spec s s), (Nat.ltb_spec s (s + S n)); try lia. cbn [andb]. ring.
      + destruct (Nat.leb_spec (S s) k), (Nat.leb_spec s k), (Nat.ltb_spec k (S s + n)), (Nat.ltb_spec k (s + S n)); cbn [andb]; try lia; ring. }
  rewrite K. destruct (Nat.leb_spec 0 k), (Nat.ltb_spec k (0 + n)); cbn [andb]; try lia. reflexivity.
Qed.
Lemma map_nth_seq {A} (l : list A) (d : A) : map (fun n => nth n l d) (seq 0 (length l)) = l.
Proof.
  apply (nth_ext _ _ d d); [rewrite map_length, seq_length; reflexivity|]. intros n L. rewrite map_length, seq_length in L.
  rewrite (nth_map_seq (fun n => nth n l d) (length l) n d L). reflexivity.
Qed.
Lemma along_rows_seq (f : nat -> list R) n (l : list (list R)) : length l = n ->
  along_rows (map f (seq 0 n)) l = sum_over (fun k => weighted (f k) (nth k l [])) (seq 0 n).
Proof.
  intros <-. assert (K : forall s, along_rows (map f (seq s (length l))) l = sum_over (fun k => weighted (f k) (nth (k - s) l [])) (seq s (length l))).
  { induction l as [|d l IH]; intros s; [reflexivity|]. cbn [length seq map]. unfold along_rows, sum_over in *. cbn [combine map fold_right fst snd].
    rewrite IH. rewrite Nat.sub_diag. cbn [nth]. f_equal. f_equal. apply map_ext_in. intros k I. apply in_seq in I. replace (k - s)%nat with (S (k - S s)) by lia. reflexivity. }
  rewrite K. apply sum_over_ext. intros k _. rewrite Nat.sub_0_r. reflexivity.
Qed.
Lemma coeff_total l : Forall proper l -> along_rows (coeff_grad size (rows_at x cs) l) ds = sum_over crate l.
Proof.
  intros P. unfold coeff_grad. assert (Lr : length (rows_at x cs) = length cs) by (unfold rows_at; apply map_length). rewrite Lr.
  rewrite along_rows_seq by apply ds_length.
  erewrite sum_over_ext.
  2:{ intros k _. apply (weighted_sums (fun n (s : share) => if (fst (snd s) =? Z.of_nat k)%Z then nth n (snd (snd s)) 0 else 0)). }
  rewrite sum_over_swap. apply sum_over_ext. intros s I. rewrite Forall_forall in P. destruct (P s I) as (L & P0 & P1).
  unfold crate. rewrite <- (pick_one (fun k => weighted (snd (snd s)) (nth k ds [])) (Z.to_nat (fst (snd s))) (length cs) P1). apply sum_over_ext. intros k _.
  rewrite Z2Nat.id by exact P0. destruct (Z.eqb_spec (fst (snd s)) (Z.of_nat k)) as [E|E].
  - f_equal. rewrite <- L. apply (map_nth_seq (snd (snd s)) 0).
  - rewrite (weighted_comm). apply weighted_zero.
Qed.

Lemma along_split_total ls : Forall (fun ss => length ss = length nbs /\ Forall proper ss) ls ->
  sum_over Rate ls = along (coord_grad (length nbs) ls) vs + along_rows (coeff_grad size (rows_at x cs) (concat ls)) ds.
Proof.
  intros F. rewrite (coord_total ls F), coeff_total; [reflexivity|]. apply Forall_concat. eapply Forall_impl; [|exact F]. intros ss [_ P]. exact P.
Qed.

Lemma atom_rate combs G : Forall (complete nmus) combs -> length G = length combs ->
  exists grads rows f, atom_back size rc rs old (Z.of_nat nt) (rows_at x cs) types iidx (nbs_at x nbs) combs G = Ok (grads, rows) /\
  (forall t, descriptor_row size rc rs old (Z.of_nat nt) (rows_at t cs) types iidx (nbs_at t nbs) combs = Ok (f t)) /\
  length grads = length nbs /\ map (@length R) rows = map (@length (R -> R)) cs /\
  derivable_pt_lim (fun t => weighted G (f t)) x (along grads vs + along_rows rows ds).
Proof.
  intros C L. unfold atom_back. rewrite L, Nat.eqb_refl.
  assert (K : exists ls f, mapM (fun cg => basis_back size rc rs old (Z.of_nat nt) (rows_at x cs) types iidx (nbs_at x nbs) (snd cg) (fst cg)) (combine combs G) = Ok ls /\
    (forall t, descriptor_row size rc rs old (Z.of_nat nt) (rows_at t cs) types iidx (nbs_at t nbs) combs = Ok (f t)) /\
    Forall (fun ss => length ss = length nbs /\ Forall proper ss) (concat ls) /\
    derivable_pt_lim (fun t => weighted G (f t)) x (sum_over Rate (concat ls))).
  { revert G L. induction C as [|c combs Cc C IH]; intros [|g G] L; cbn in L; try discriminate.
    - exists [], (fun _ => []). repeat split; [constructor|]. unfold sum_over. cbn. apply dl_const.
    - destruct (IH G ltac:(lia)) as (ls & f & E1 & E2 & E3 & E4). destruct (basis_rate g c Cc) as (l1 & f1 & B1 & B2 & B3 & B4).
      exists (l1 :: ls), (fun t => f1 t :: f t). cbn [combine mapM fst snd]. rewrite B1. cbn [bind]. rewrite E1. cbn [bind]. split; [reflexivity|]. split.
      + intros t. unfold descriptor_row in *. cbn [mapM]. rewrite B2. cbn [bind]. rewrite E2. reflexivity.
      + split; [cbn [concat]; apply Forall_app; split; assumption|]. cbn [concat weighted]. rewrite sum_over_app. apply dl_plus; assumption. }
  destruct K as (ls & f & E1 & E2 & E3 & E4). do 2 eexists. exists f. rewrite E1. cbn [bind].
  assert (Ln : length (nbs_at x nbs) = length nbs) by (unfold nbs_at; apply map_length). rewrite Ln.
  split; [reflexivity|]. split; [exact E2|]. split; [apply coord_grad_length; exact E3|]. split.
  - unfold coeff_grad. rewrite map_map. rewrite (map_ext _ (fun _ => size)) by (intros k; rewrite map_length, seq_length; reflexivity).
    destruct cs_shape as [_ F]. unfold rows_at. rewrite map_length. clear -F.
    assert (Q0 : forall s, map (fun _ : nat => size) (seq s (length cs)) = map (@length (R -> R)) cs).
    { induction F as [|c l H F IH]; intros s; [reflexivity|]. cbn [length seq map]. rewrite H, IH. reflexivity. }
    apply Q0.
  - eapply dl_val; [|exact E4]. apply along_split_total. exact E3.
Qed.
End Path.
