(** Proofs for [BandProps]. *)
From Coq Require Import QArith Qround Qabs Lqa.
From Verif Require Import Text TextProofs DataModel BandModel BandSpec.
Open Scope nat_scope.
Open Scope list_scope.

Lemma Qltb_lt x y : Qltb x y = true <-> (x < y)%Q.
Proof.
  unfold Qltb. rewrite negb_true_iff. rewrite <- not_true_iff_false, Qle_bool_iff. split; intros H; [now apply Qnot_le_lt|now apply Qlt_not_le].
Qed.
Lemma Qltb_ge x y : Qltb x y = false <-> (y <= x)%Q.
Proof. rewrite <- not_true_iff_false, Qltb_lt. split; [apply Qnot_lt_le|apply Qle_not_lt]. Qed.

(** ** Rounding *)
Lemma round_int_bounds x : (Qfloor x <= round_int x <= Qfloor x + 1)%Z.
Proof. unfold round_int. destruct (_ ?= _)%Q; [destruct (Z.even _)| |]; lia. Qed.
Lemma round_int_mono x y : (x <= y)%Q -> (round_int x <= round_int y)%Z.
Proof.
  intros H. pose proof (Qfloor_resp_le x y H) as F. pose proof (round_int_bounds x). pose proof (round_int_bounds y).
  destruct (Z.eq_dec (Qfloor x) (Qfloor y)) as [E|E]; [|lia]. unfold round_int. rewrite <- E in *.
  destruct (x - inject_Z (Qfloor x) ?= 1 # 2)%Q eqn:C; destruct (y - inject_Z (Qfloor x) ?= 1 # 2)%Q eqn:D;
    rewrite <- ?Qeq_alt, <- ?Qlt_alt, <- ?Qgt_alt in *; try (destruct (Z.even _)); try lia; exfalso; lra.
Qed.
Lemma round_int_int x n : (x == inject_Z n)%Q -> round_int x = n.
Proof.
  intros E. unfold round_int. assert (F : Qfloor x = n) by (rewrite E; apply Qfloor_Z). rewrite F.
  replace (x - inject_Z n ?= 1 # 2)%Q with Lt; [reflexivity|]. symmetry. apply (proj1 (Qlt_alt _ _)). lra.
Qed.
Lemma round4_spec x : (round4 x == inject_Z (round_int (x * (10000 # 1))) * (1 # 10000))%Q.
Proof. unfold round4, round_to, Qeq. cbn. lia. Qed.
Lemma round4_mono x y : (x <= y)%Q -> (round4 x <= round4 y)%Q.
Proof.
  intros H. rewrite !round4_spec. apply Qmult_le_compat_r; [|discriminate]. rewrite <- Zle_Qle. apply round_int_mono. lra.
Qed.
Lemma round4_exact x n : (x == n # 10000)%Q -> (round4 x == x)%Q.
Proof.
  intros E. rewrite round4_spec. rewrite (round_int_int (x * (10000 # 1)) n).
  - rewrite E. unfold Qeq. cbn. lia.
  - rewrite E. unfold Qeq. cbn. lia.
Qed.
Lemma round4_idem x : (round4 (round4 x) == round4 x)%Q.
Proof. apply round4_exact with (round_int (x * (10000 # 1))). reflexivity. Qed.

(** ** The scan *)
Section Scan.
Variable T : Type.
Variable le : Q -> Q -> Prop.
Variable better : Q -> Q -> bool.
Hypothesis le_refl : forall x, le x x.
Hypothesis le_trans : forall x y z, le x y -> le y z -> le x z.
Hypothesis better_true : forall x y, better x y = true -> le x y.
Hypothesis better_false : forall x y, better x y = false <-> le y x.
Hypothesis rnd_mono : forall x y, le x y -> le (round4 x) (round4 y).
Hypothesis rnd_idem : forall x, le (round4 (round4 x)) (round4 x) /\ le (round4 x) (round4 (round4 x)).

Definition step (b : option (Q * T)) (p : T * Q) : option (Q * T) :=
  if match b with None => true | Some (e, _) => better (snd p) e end then Some (round4 (snd p), fst p) else b.

Definition good (l : list (T * Q)) (o : option (Q * T)) : Prop :=
  match o with
  | None => l = []
  | Some (e, t) => (exists x, In (t, x) l /\ e = round4 x) /\ forall t' y, In (t', y) l -> le e (round4 y)
  end.

Lemma scan_good l : forall l0 b, good l0 b -> good (l0 ++ l) (fold_left step l b).
Proof.
  induction l as [|[t x] l IH]; intros l0 b G; cbn [fold_left]; [now rewrite app_nil_r|].
  replace (l0 ++ (t, x) :: l) with ((l0 ++ [(t, x)]) ++ l) by now rewrite <- app_assoc.
  apply IH. unfold step. cbn [fst snd]. destruct b as [[e t0]|].
  - destruct G as [[x0 [I0 E0]] G]. destruct (better x e) eqn:B.
    + apply better_true in B. split.
      * exists x. split; [apply in_app_iff; right; now left|reflexivity].
      * intros t' y H. apply in_app_iff in H. destruct H as [H|[H|[]]]; [|injection H as <- <-; apply le_refl].
        apply (le_trans _ e); [|eauto]. subst e. apply (le_trans _ (round4 (round4 x0))); [|apply rnd_idem]. now apply rnd_mono.
    + split.
      * exists x0. split; [apply in_app_iff; now left|exact E0].
      * intros t' y H. apply in_app_iff in H. destruct H as [H|[H|[]]]; [eauto|]. injection H as <- <-.
        apply better_false in B. rename B into L.
        apply rnd_mono in L. subst e. apply (le_trans _ (round4 (round4 x0))); [apply rnd_idem|exact L].
  - cbn in G. subst l0. split; [exists x; split; [now left|reflexivity]|]. intros t' y [H|[]]. injection H as <- <-. apply le_refl.
Qed.
Lemma scan_all l : good l (fold_left step l None).
Proof. change l with ([] ++ l) at 1. apply scan_good. reflexivity. Qed.

(** The found entry is strictly better than all entries before it. *)
Hypothesis better_le : forall x y z, better x y = true -> le y z -> better x z = true.
Definition first_of (l : list (T * Q)) (o : option (Q * T)) : Prop :=
  match o with
  | None => l = []
  | Some (e, t) => exists l1 x l2, l = l1 ++ (t, x) :: l2 /\ e = round4 x /\ forall t' y, In (t', y) l1 -> better x y = true
  end.

Lemma scan_first l : Forall (fun p => le (round4 (snd p)) (snd p)) l -> first_of l (fold_left step l None).
Proof.
  induction l as [|[t x] l IH] using rev_ind; intros X; [reflexivity|].
  rewrite fold_left_app. cbn [fold_left]. apply Forall_app in X. destruct X as [X _]. specialize (IH X). pose proof (scan_all l) as G.
  destruct (fold_left step l None) as [[e t0]|]; unfold step; cbn [fst snd].
  - destruct IH as (l1 & x0 & l2 & -> & -> & F). destruct (better x (round4 x0)) eqn:B.
    + exists (l1 ++ (t0, x0) :: l2), x, []. split; [reflexivity|]. split; [reflexivity|]. intros t' y I.
      destruct G as [_ G]. apply better_le with (round4 x0); [exact B|]. apply le_trans with (round4 y); [now apply (G t')|].
      rewrite Forall_forall in X. now apply (X (t', y)).
    + exists l1, x0, (l2 ++ [(t, x)]). split; [now rewrite <- app_assoc|]. split; [reflexivity|exact F].
  - cbn in IH. subst l. exists [], x, []. split; [reflexivity|]. split; [reflexivity|]. intros t' y [].
Qed.
End Scan.

(** ** Positions *)
Definition positions (t : table) : list (spin * nat * nat * Q) :=
  flat_map (fun s => map (fun p => (s, fst (fst p) + 1, snd (fst p) + 1, snd p)) (entries (rows t s))) [Up; Down].

Lemma in_numbered {A} (l : list A) i x : In (i, x) (numbered l) <-> nth_error l i = Some x.
Proof.
  unfold numbered. assert (G : forall k, In (i, x) (combine (seq k (List.length l)) l) <-> k <= i /\ nth_error l (i - k) = Some x).
  { induction l as [|y l IH]; intros k; cbn [List.length seq combine].
    - split; [intros []|]. intros [_ H]. destruct (i - k); discriminate.
    - cbn [In]. rewrite IH. split.
      + intros [H|[H H']]; [injection H as <- <-; split; [lia|]; now rewrite Nat.sub_diag|]. split; [lia|]. replace (i - k) with (S (i - S k)) by lia. exact H'.
      + intros [H H']. destruct (Nat.eq_dec i k) as [->|N]; [left; rewrite Nat.sub_diag in H'; cbn in H'; congruence|]. right. split; [lia|].
        replace (i - k) with (S (i - S k)) in H' by lia. exact H'. }
  rewrite (G 0), Nat.sub_0_r. split; [tauto|]. intros H. split; [lia|exact H].
Qed.
Lemma in_entries a i j x : In (i, j, x) (entries a) <-> exists r, nth_error a i = Some r /\ nth_error r j = Some x.
Proof.
  unfold entries. rewrite in_flat_map. split.
  - intros [[i' r] [H H']]. apply in_map_iff in H'. destruct H' as [[j' x'] [E H']]. cbn in E, H'. injection E as <- <- <-.
    apply in_numbered in H. apply in_numbered in H'. eauto.
  - intros (r & H & H'). exists (i, r). split; [now apply in_numbered|]. apply in_map_iff. exists (j, x). split; [reflexivity|now apply in_numbered].
Qed.
Lemma in_positions t s k b x : In (s, k, b, x) (positions t) <-> eigenvalue t s k b x.
Proof.
  unfold positions, eigenvalue. rewrite in_flat_map. split.
  - intros (s' & _ & H). apply in_map_iff in H. destruct H as [[[i j] x'] [E H]]. cbn in E. injection E as <- <- <- <-. apply in_entries in H.
    rewrite !Nat.add_sub. split; [lia|]. split; [lia|exact H].
  - intros (K & B & H). exists s. split; [destruct s; cbn; tauto|]. apply in_map_iff. exists (k - 1, b - 1, x). split; [cbn; f_equal; f_equal; [f_equal|]; lia|now apply in_entries].
Qed.

Definition tagged (t : table) : list (spin * nat * nat * Q) := positions t.
Definition rep (o : option (Q * (spin * nat * nat))) : best :=
  match o with None => no_best | Some (e, (s, k, b)) => (Some e, k, b, Some s) end.

Lemma filter_map {A B} (f : A -> B) (p : B -> bool) l : filter p (map f l) = map f (filter (fun x => p (f x)) l).
Proof. induction l as [|x l IH]; cbn; [reflexivity|]. destruct (p (f x)); cbn; now rewrite IH. Qed.

Lemma scan_inner (better : Q -> Q -> bool) (st : spin -> best -> nat * nat * Q -> best) s l :
  (forall s b i j x, st s b (i, j, x) = if match fst (fst (fst b)) with None => true | Some e => better x e end then (Some (round4 x), i + 1, j + 1, Some s) else b) ->
  forall o, fold_left (st s) l (rep o) = rep (fold_left (step _ better) (map (fun p => (s, fst (fst p) + 1, snd (fst p) + 1, snd p)) l) o).
Proof.
  intros E. induction l as [|[[i j] x] l IH]; intros o; cbn [fold_left map]; [reflexivity|]. rewrite <- IH. f_equal. rewrite E.
  unfold step. cbn [fst snd]. destruct o as [[e [[s' k'] b']]|]; cbn [rep no_best fst snd]; [|reflexivity]. destruct (better x e); reflexivity.
Qed.

Lemma cbm_scan_eq t ef : cbm_scan t ef = rep (fold_left (step _ Qltb) (filter (fun p => Qle_bool ef (snd p)) (positions t)) None).
Proof.
  unfold cbm_scan, positions. cbn [fold_left flat_map]. rewrite app_nil_r, filter_app, fold_left_app, !filter_map. cbn [snd].
  change no_best with (rep None). rewrite (scan_inner Qltb cbm_step), (scan_inner Qltb cbm_step); reflexivity.
Qed.
Lemma vbm_scan_eq t ef : vbm_scan t ef = rep (fold_left (step _ (fun x y => Qltb y x)) (filter (fun p => Qle_bool (snd p) ef) (positions t)) None).
Proof.
  unfold vbm_scan, positions. cbn [fold_left flat_map]. rewrite app_nil_r, filter_app, fold_left_app, !filter_map. cbn [snd].
  change no_best with (rep None). rewrite (scan_inner (fun x y => Qltb y x) vbm_step), (scan_inner (fun x y => Qltb y x) vbm_step); reflexivity.
Qed.
