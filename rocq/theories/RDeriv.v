(** Derivatives of real functions in a form convenient for computation.
    Everything is over the standard library's [derivable_pt_lim]. *)
From Verif Require Export Vec.
Open Scope R_scope.

Lemma dl_ext f g x l : (forall t, f t = g t) -> derivable_pt_lim f x l -> derivable_pt_lim g x l.
Proof. intros E H eps He. destruct (H eps He) as [d Hd]. exists d. intros h Hh1 Hh2. rewrite <- !E. apply Hd; assumption. Qed.

Lemma dl_val f x l l' : l = l' -> derivable_pt_lim f x l -> derivable_pt_lim f x l'.
Proof. intros ->. exact (fun H => H). Qed.

Lemma dl_loc f g x l d : 0 < d -> (forall t, Rabs (t - x) < d -> f t = g t) -> derivable_pt_lim f x l -> derivable_pt_lim g x l.
Proof.
  intros Hd E H eps He. destruct (H eps He) as [e Hh].
  assert (Hm : 0 < Rmin d e) by (apply Rmin_pos; [exact Hd|apply cond_pos]).
  exists (mkposreal _ Hm). cbn. intros h Hh1 Hh2. rewrite <- !E.
  - apply Hh; [exact Hh1|]. eapply Rlt_le_trans; [exact Hh2|apply Rmin_r].
  - rewrite Rminus_eq_0, Rabs_R0. exact Hd.
  - replace (x + h - x) with h by ring. eapply Rlt_le_trans; [exact Hh2|apply Rmin_l].
Qed.

Lemma dl_const a x : derivable_pt_lim (fun _ => a) x 0.
Proof. apply derivable_pt_lim_const. Qed.
Lemma dl_id x : derivable_pt_lim (fun t => t) x 1.
Proof. apply derivable_pt_lim_id. Qed.
Lemma dl_plus f g x a b : derivable_pt_lim f x a -> derivable_pt_lim g x b -> derivable_pt_lim (fun t => f t + g t) x (a + b).
Proof. apply derivable_pt_lim_plus. Qed.
Lemma dl_minus f g x a b : derivable_pt_lim f x a -> derivable_pt_lim g x b -> derivable_pt_lim (fun t => f t - g t) x (a - b).
Proof. apply derivable_pt_lim_minus. Qed.
Lemma dl_opp f x a : derivable_pt_lim f x a -> derivable_pt_lim (fun t => - f t) x (- a).
Proof. apply derivable_pt_lim_opp. Qed.
Lemma dl_mult f g x a b : derivable_pt_lim f x a -> derivable_pt_lim g x b -> derivable_pt_lim (fun t => f t * g t) x (a * g x + f x * b).
Proof. apply derivable_pt_lim_mult. Qed.
Lemma dl_scal k f x a : derivable_pt_lim f x a -> derivable_pt_lim (fun t => k * f t) x (k * a).
Proof. apply derivable_pt_lim_scal. Qed.
Lemma dl_comp f g x a b : derivable_pt_lim f x a -> derivable_pt_lim g (f x) b -> derivable_pt_lim (fun t => g (f t)) x (b * a).
Proof. apply derivable_pt_lim_comp. Qed.
Lemma dl_inv f x a : derivable_pt_lim f x a -> f x <> 0 -> derivable_pt_lim (fun t => / f t) x (- a / (f x * f x)).
Proof.
  intros H N. apply (dl_val _ _ ((0 * f x - a * 1) / (f x)²)); [unfold Rsqr; field; exact N|].
  apply (dl_ext (div_fct (fun _ => 1) f)); [intros t; unfold div_fct; apply Rmult_1_l|].
  apply derivable_pt_lim_div; [apply dl_const|exact H|exact N].
Qed.
Lemma dl_pow f x a n : derivable_pt_lim f x a -> derivable_pt_lim (fun t => f t ^ n) x (INR n * f x ^ Nat.pred n * a).
Proof. intros H. apply (dl_comp f (fun y => y ^ n)); [exact H|apply derivable_pt_lim_pow]. Qed.
Lemma dl_sqrt f x a : derivable_pt_lim f x a -> 0 < f x -> derivable_pt_lim (fun t => sqrt (f t)) x (a / (2 * sqrt (f x))).
Proof.
  intros H P. apply (dl_val _ _ (/ (2 * sqrt (f x)) * a)); [unfold Rdiv; ring|].
  apply (dl_comp f sqrt); [exact H|apply derivable_pt_lim_sqrt, P].
Qed.

Lemma dl_unique f x a b : derivable_pt_lim f x a -> derivable_pt_lim f x b -> a = b.
Proof. apply uniqueness_limite. Qed.

Lemma dl_continuous f x l : derivable_pt_lim f x l -> continuity_pt f x.
Proof. intros H. apply derivable_continuous_pt. exists l. exact H. Qed.

(** Two differentiable pieces with equal value and slope at the joint. *)
Lemma dl_glue f g h x l :
  (forall t, t < x -> f t = g t) -> (forall t, x <= t -> f t = h t) -> g x = h x ->
  derivable_pt_lim g x l -> derivable_pt_lim h x l -> derivable_pt_lim f x l.
Proof.
  intros L R0 E G H eps He. destruct (G eps He) as [dg Hg]. destruct (H eps He) as [dh Hh].
  assert (Hm : 0 < Rmin dg dh) by (apply Rmin_pos; apply cond_pos).
  exists (mkposreal _ Hm). cbn. intros k K1 K2. rewrite (R0 x) by lra.
  destruct (Rlt_dec (x + k) x) as [C|C].
  - rewrite (L (x + k)) by exact C. rewrite <- E. apply Hg; [exact K1|]. eapply Rlt_le_trans; [exact K2|apply Rmin_l].
  - rewrite (R0 (x + k)) by lra. apply Hh; [exact K1|]. eapply Rlt_le_trans; [exact K2|apply Rmin_r].
Qed.

(** A function with two one-sided limits that differ is not continuous there. *)
Lemma jump_not_continuous f x a : a <> f x ->
  (forall d, 0 < d -> exists t, Rabs (t - x) < d /\ f t = a) -> ~ continuity_pt f x.
Proof.
  intros N H C. assert (P : 0 < Rabs (a - f x)) by (apply Rabs_pos_lt; lra).
  destruct (C _ P) as (d & Hd & K). destruct (H d Hd) as (t & Ht & E).
  destruct (Req_dec x t) as [->|D]; [congruence|].
  assert (Z0 := K t). cbn in Z0. unfold R_dist in Z0.
  assert (X : Rabs (f t - f x) < Rabs (a - f x)).
  { apply Z0. split; [split; [exact I|exact D]|exact Ht]. }
  rewrite E in X. lra.
Qed.

(** A non-positive derivative everywhere makes a function non-increasing. *)
Lemma nonpos_decreasing f f' : (forall x, derivable_pt_lim f x (f' x)) -> (forall x, f' x <= 0) -> forall x y, x <= y -> f y <= f x.
Proof.
  intros D N. assert (pr : derivable f) by (intros x; exists (f' x); apply D).
  apply (nonpos_derivative_1 f pr). intros x. rewrite (derive_pt_eq_0 f x (f' x) (pr x) (D x)). apply N.
Qed.
