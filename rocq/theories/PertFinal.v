(** From one rotation to the whole perturbation; which strains keep the handedness; bounds. *)
From Verif Require Import PertModel PertSpec PertProofs NbMlffProofs.
From Coq Require Import Psatz.
Local Open Scope R_scope.

Definition S6 (f : R) (e : six) : R3 -> R3 := drawn f (r0 e) (r1 e) (r2 e) (r3 e) (r4 e) (r5 e).

Lemma matrix_ok f e : 0 <= f -> exists m, get_cell_perturb_matrix f e = Ok m /\ forall v, vmul v m = S6 f e v.
Proof.
  intros F. unfold get_cell_perturb_matrix. destruct (Rlt_dec f 0) as [L|_]; [lra|]. eexists. split; [reflexivity|]. intros v. destruct v as [[x y] z]. unfold S6, drawn, strain. unf. eq3; field.
Qed.
Lemma vector_ok d e : 0 <= d -> get_atom_perturb_vector d e = Ok (times3 (d / sqrt 3) e).
Proof.
  intros D. unfold get_atom_perturb_vector. destruct (Rlt_dec d 0) as [L|_]; [lra|]. f_equal. open3. unf. unfold Rdiv. eq3; ring.
Qed.
Lemma displace_ok d randn k coords : 0 <= d \/ coords = [] -> exists out, displace d randn k coords = Ok out /\ length out = length coords /\
  forall i v, nth_error coords i = Some v -> nth_error out i = Some (plus3 v (times3 (d / sqrt 3) (randn (k + i)%nat))).
Proof.
  intros [D| ->]; [|exists []; repeat split; intros [|i] v; discriminate]. revert k. induction coords as [|x coords IH]; intros k; [exists []; repeat split; intros [|i] v; discriminate|].
  cbn [displace]. rewrite vector_ok by exact D. cbn [bind]. destruct (IH (S k)) as (out & E & L & N). rewrite E. cbn [bind]. eexists. split; [reflexivity|]. split; [cbn; now rewrite L|].
  intros [|i] v H; cbn in H |- *.
  - injection H as <-. rewrite Nat.add_0_r. f_equal. destruct (randn k) as [[? ?] ?]. open3. reflexivity.
  - rewrite (N i v H). do 3 f_equal. f_equal. lia.
Qed.

(** What one perturbation has to be. *)
Definition perturbed {A} (s : structure A) (f d : R) (e : six) (randn : nat -> vec) (out : structure A) : Prop :=
  exists W, rotation W /\ standard_cell (row0 (lattice out)) (row1 (lattice out)) (row2 (lattice out)) /\
  lattice out = (W (S6 f e (row0 (lattice s))), W (S6 f e (row1 (lattice s))), W (S6 f e (row2 (lattice s)))) /\
  species out = species s /\ length (cart_coords out) = length (cart_coords s) /\
  forall k v, nth_error (cart_coords s) k = Some v -> nth_error (cart_coords out) k = Some (W (plus3 (S6 f e v) (times3 (d / sqrt 3) (randn k)))).
Definition new_volume {A} (s : structure A) (f : R) (e : six) : R :=
  volume (S6 f e (row0 (lattice s))) (S6 f e (row1 (lattice s))) (S6 f e (row2 (lattice s))).

Section Once.
Variable qr : mat -> mat * mat.
Hypothesis Q : decomposition qr.
Context {A : Type}.

Lemma once_ok (s : structure A) f d e randn : 0 <= f -> (0 <= d \/ cart_coords s = []) ->
  (0 < new_volume s f e -> exists out, perturb_once qr s f d e randn = Ok out /\ perturbed s f d e randn out) /\
  (new_volume s f e < 0 -> perturb_once qr s f d e randn = Err AssertionError).
Proof.
  intros F D. unfold perturb_once, new_volume. destruct (matrix_ok f e F) as (m & Em & Vm). rewrite Em. cbn [bind].
  destruct (displace_ok d randn 0 (map (fun v => vmul v m) (cart_coords s))) as (cs & Ed & Ld & Nd); [destruct D as [D| ->]; [now left|now right]|]. rewrite Ed. cbn [bind].
  destruct (rot_ok qr Q (mmul (lattice s) m) cs (species s)) as [R1 R2].
  change (row0 (mmul (lattice s) m)) with (vmul (row0 (lattice s)) m) in *. change (row1 (mmul (lattice s) m)) with (vmul (row1 (lattice s)) m) in *. change (row2 (mmul (lattice s) m)) with (vmul (row2 (lattice s)) m) in *.
  rewrite !Vm in R1, R2. split; [|exact R2]. intros H. destruct (R1 H) as (out & W & E1 & E2 & E3 & E4 & E5 & E6). exists out. split; [exact E1|]. exists W. split; [exact E2|]. split; [exact E3|]. split; [exact E4|]. split; [exact E5|].
  split; [rewrite E6; etransitivity; [apply map_length|]; etransitivity; [exact Ld|apply map_length]|]. intros k v Hk. rewrite E6. pose proof (Nd k (vmul v m)) as X. rewrite nth_error_map, Hk in X. specialize (X eq_refl). etransitivity; [apply nth_error_map|]. unfold vec, R3 in *. rewrite X. cbn [option_map Nat.add]. rewrite Vm. reflexivity.
Qed.
Lemma once_negative (s : structure A) f d e randn :
  (f < 0 -> perturb_once qr s f d e randn = Err RuntimeError) /\ (0 <= f -> d < 0 -> cart_coords s <> [] -> perturb_once qr s f d e randn = Err RuntimeError).
Proof.
  split; intros F; unfold perturb_once; [unfold get_cell_perturb_matrix; destruct (Rlt_dec f 0); [reflexivity|lra]|]. intros D N. destruct (matrix_ok f e F) as (m & -> & _). cbn [bind]. destruct (cart_coords s) as [|x l]; [contradiction|]. cbn [map displace]. unfold get_atom_perturb_vector. destruct (Rlt_dec d 0); [reflexivity|lra].
Qed.
End Once.

(** ** Uniqueness *)
Lemma square_unique x y : 0 < x -> 0 < y -> x * x = y * y -> x = y.
Proof. intros X Y E. assert (K : (x - y) * (x + y) = 0) by lra. apply Rmult_integral in K. lra. Qed.
Lemma standard_unique a b c a' b' c' : standard_cell a b c -> standard_cell a' b' c' ->
  inner a a = inner a' a' -> inner a b = inner a' b' -> inner b b = inner b' b' -> inner a c = inner a' c' -> inner b c = inner b' c' -> inner c c = inner c' c' ->
  a = a' /\ b = b' /\ c = c'.
Proof.
  destruct a as [[ax ay] az], b as [[bx by_] bz], c as [[cx cy] cz], a' as [[ax' ay'] az'], b' as [[bx' by'] bz'], c' as [[cx' cy'] cz'].
  unfold standard_cell, inner. intros (-> & -> & -> & P1 & P2 & P3) (-> & -> & -> & P4 & P5 & P6) H1 H2 H3 H4 H5 H6.
  assert (ax = ax') by (apply square_unique; lra). subst ax'.
  assert (bx = bx') by (apply (Rmult_eq_reg_l ax); lra). subst bx'.
  assert (by_ = by') by (apply square_unique; lra). subst by'.
  assert (cx = cx') by (apply (Rmult_eq_reg_l ax); lra). subst cx'.
  assert (cy = cy') by (apply (Rmult_eq_reg_l by_); lra). subst cy'.
  assert (cz = cz') by (apply square_unique; lra). subst cz'. auto.
Qed.
Lemma rotation_unique W W' a b c x : rotation W -> rotation W' -> volume a b c <> 0 -> W a = W' a -> W b = W' b -> W c = W' c -> W x = W' x.
Proof.
  intros (_ & I1 & V1) (_ & I2 & _) V Ea Eb Ec. assert (Z : plus3 (W x) (times3 (-1) (W' x)) = (0, 0, 0)).
  { apply (orthogonal_zero (W a) (W b) (W c)); [rewrite V1; exact V|..]; rewrite inner_plus, inner_times; [rewrite Ea at 2|rewrite Eb at 2|rewrite Ec at 2]; rewrite I1, I2; ring. }
  destruct (W x) as [[? ?] ?], (W' x) as [[? ?] ?]. unf. injection Z as Z1 Z2 Z3. eq3; lra.
Qed.
Lemma structure_eq {A} (s t : structure A) : lattice s = lattice t -> species s = species t -> cart_coords s = cart_coords t -> s = t.
Proof. destruct s, t; cbn. congruence. Qed.
Lemma list_ext {A} (l l' : list A) : length l = length l' -> (forall i x, nth_error l i = Some x -> nth_error l' i = Some x) -> l = l'.
Proof.
  revert l'. induction l as [|x l IH]; intros [|y l'] L H; try discriminate; [reflexivity|]. f_equal; [specialize (H 0%nat x eq_refl); cbn in H; congruence|]. apply IH; [now injection L|]. intros i z Hz. apply (H (S i) z Hz).
Qed.
Lemma perturbed_unique {A} (s : structure A) f d e randn out out' : new_volume s f e <> 0 -> perturbed s f d e randn out -> perturbed s f d e randn out' -> out = out'.
Proof.
  intros V (W & R1 & C1 & L1 & S1 & N1 & P1) (W' & R2 & C2 & L2 & S2 & N2 & P2).
  assert (R1' := R1). assert (R2' := R2). destruct R1' as (_ & I1 & _). destruct R2' as (_ & I2 & _).
  rewrite L1 in C1. rewrite L2 in C2. cbn [row0 row1 row2 fst snd] in C1, C2.
  destruct (standard_unique _ _ _ _ _ _ C1 C2) as (E1 & E2 & E3); try (cbn; rewrite I1, I2; reflexivity).
  apply structure_eq; [rewrite L1, L2; f_equal; [f_equal|]; assumption|congruence|]. apply list_ext; [congruence|]. intros i x Hx.
  assert (exists v, nth_error (cart_coords s) i = Some v) as (v & Hv).
  { destruct (nth_error (cart_coords s) i) as [v|] eqn:Ev; [now exists v|]. apply nth_error_None in Ev. assert (i < length (cart_coords out))%nat by (apply nth_error_Some; rewrite Hx; discriminate). lia. }
  rewrite (P1 i v Hv) in Hx. rewrite (P2 i v Hv). injection Hx as <-. f_equal. symmetry. eapply rotation_unique; eauto.
Qed.

(** ** The whole list *)
Section All.
Variable qr : mat -> mat * mat.
Hypothesis Q : decomposition qr.
Context {A : Type}.
Lemma mapM_first_err {B C} (f : B -> result C) l err : (forall x, In x l -> (exists y, f x = Ok y) \/ f x = Err err) -> (exists x, In x l /\ f x = Err err) -> mapM f l = Err err.
Proof.
  induction l as [|x l IH]; intros H (z & I & E); [destruct I|]. cbn. destruct (H x (or_introl eq_refl)) as [[y Ey]|Ey]; rewrite Ey; [|reflexivity]. cbn. destruct I as [->|I]; [congruence|]. rewrite IH; [reflexivity|intros; apply H; now right|eauto].
Qed.
Lemma mapM_seq {C} (f : nat -> result C) (P : nat -> C -> Prop) n a : (forall j, (a <= j < a + n)%nat -> exists y, f j = Ok y /\ P j y) ->
  exists l, mapM f (seq a n) = Ok l /\ length l = n /\ forall j y, nth_error l j = Some y -> P (a + j)%nat y.
Proof.
  revert a. induction n as [|n IH]; intros a H; [exists []; repeat split; intros [|j] y; discriminate|]. cbn. destruct (H a) as (y & Ey & Py); [lia|]. rewrite Ey. cbn.
  destruct (IH (S a)) as (l & El & L & N); [intros j J; apply H; lia|]. rewrite El. cbn. eexists. split; [reflexivity|]. split; [cbn; now rewrite L|]. intros [|j] z Hz; cbn in Hz; [injection Hz as <-; now rewrite Nat.add_0_r|]. replace (a + S j)%nat with (S a + j)%nat by lia. now apply N.
Qed.
Lemma all_ok (s : structure A) n f d rand randn : 0 <= f -> (0 <= d \/ cart_coords s = []) ->
  ((forall j, (j < n)%nat -> 0 < new_volume s f (rand j)) -> exists outs, perturb qr s n f d rand randn = Ok outs /\ length outs = n /\
     forall j out, nth_error outs j = Some out -> perturbed s f d (rand j) (randn j) out) /\
  ((forall j, (j < n)%nat -> new_volume s f (rand j) <> 0) -> (exists j, (j < n)%nat /\ new_volume s f (rand j) < 0) -> perturb qr s n f d rand randn = Err AssertionError).
Proof.
  intros F D. split.
  - intros H. apply (mapM_seq _ (fun j out => perturbed s f d (rand j) (randn j) out)). intros j J. apply once_ok; auto. apply H. lia.
  - intros N (j & J & V). apply mapM_first_err.
    + intros i I. apply in_seq in I. specialize (N i). destruct (once_ok qr Q s f d (rand i) (randn i) F D) as [O1 O2]. destruct (Rlt_dec (new_volume s f (rand i)) 0) as [L|L]; [right; now apply O2|]. left. destruct O1 as (out & E & _); [assert (new_volume s f (rand i) <> 0) by (apply N; lia); lra|now exists out].
    + exists j. split; [apply in_seq; lia|]. now apply once_ok.
Qed.
Lemma all_negative (s : structure A) n f d rand randn : (0 < n)%nat ->
  (f < 0 -> perturb qr s n f d rand randn = Err RuntimeError) /\ (0 <= f -> d < 0 -> cart_coords s <> [] -> perturb qr s n f d rand randn = Err RuntimeError).
Proof.
  intros N. destruct n as [|n]; [lia|]. unfold perturb. cbn [seq mapM]. destruct (once_negative qr s f d (rand 0%nat) (randn 0%nat)) as [A1 A2]. split; intros; [rewrite A1 by assumption|rewrite A2 by assumption]; reflexivity.
Qed.
End All.
Lemma independent {A} qr qr' (s : structure A) n f d rand randn : decomposition qr -> decomposition qr' ->
  (forall j, (j < n)%nat -> new_volume s f (rand j) <> 0) -> perturb qr s n f d rand randn = perturb qr' s n f d rand randn.
Proof.
  intros Q Q' N. unfold perturb. assert (X : forall l, (forall j, In j l -> (j < n)%nat) -> mapM (fun jj => perturb_once qr s f d (rand jj) (randn jj)) l = mapM (fun jj => perturb_once qr' s f d (rand jj) (randn jj)) l); [|apply X; intros j J; apply in_seq in J; lia].
  induction l as [|j l IH]; intros H; [reflexivity|]. cbn. rewrite IH by (intros; apply H; now right). assert (E : perturb_once qr s f d (rand j) (randn j) = perturb_once qr' s f d (rand j) (randn j)); [|now rewrite E].
  specialize (N j (H j (or_introl eq_refl))). destruct (Rlt_dec f 0) as [F|F]; [rewrite !(proj1 (once_negative _ s f d _ _)) by exact F; reflexivity|].
  assert (F' : 0 <= f) by lra. clear F.
  destruct (Rlt_dec d 0) as [D|D].
  - destruct (cart_coords s) eqn:Ec; [|rewrite !(proj2 (once_negative _ s f d _ _)) by (auto; rewrite Ec; discriminate); reflexivity].
    assert (D' : 0 <= d \/ cart_coords s = []) by now right. destruct (once_ok qr Q s f d (rand j) (randn j) F' D') as [O1 O2], (once_ok qr' Q' s f d (rand j) (randn j) F' D') as [O3 O4].
    destruct (Rlt_dec (new_volume s f (rand j)) 0) as [L|L]; [rewrite O2, O4 by exact L; reflexivity|]. destruct O1 as (o1 & -> & P1); [lra|]. destruct O3 as (o3 & -> & P3); [lra|]. f_equal. eapply perturbed_unique; eauto.
  - assert (D' : 0 <= d \/ cart_coords s = []) by (left; lra). destruct (once_ok qr Q s f d (rand j) (randn j) F' D') as [O1 O2], (once_ok qr' Q' s f d (rand j) (randn j) F' D') as [O3 O4].
    destruct (Rlt_dec (new_volume s f (rand j)) 0) as [L|L]; [rewrite O2, O4 by exact L; reflexivity|]. destruct O1 as (o1 & -> & P1); [lra|]. destruct O3 as (o3 & -> & P3); [lra|]. f_equal. eapply perturbed_unique; eauto.
Qed.

(** ** Handedness *)
Lemma strain_volume xx yy zz yz xz xy u v w : volume (strain xx yy zz yz xz xy u) (strain xx yy zz yz xz xy v) (strain xx yy zz yz xz xy w) =
  ((1 + xx) * (1 + yy) * (1 + zz) + 2 * xy * xz * yz - (1 + xx) * (yz * yz) - (1 + yy) * (xz * xz) - (1 + zz) * (xy * xy)) * volume u v w.
Proof. open3. unfold strain. unf. ring. Qed.
Lemma abs_le x k : - k <= x <= k -> x * x <= k * k.
Proof. intros. nra. Qed.
Lemma det_positive c a b g x y z : 0 <= c -> c < 1 / 2 -> 1 - c <= a -> 1 - c <= b -> 1 - c <= g -> - (c / 2) <= x <= c / 2 -> - (c / 2) <= y <= c / 2 -> - (c / 2) <= z <= c / 2 ->
  0 < a * b * g + 2 * x * y * z - a * (z * z) - b * (y * y) - g * (x * x).
Proof.
  intros C0 C1 A B G X Y Z. set (t := 1 - c). set (k := c / 2) in *. assert (K : 0 <= k) by (unfold k; lra). assert (T : 2 * k < t) by (unfold t, k; lra).
  assert (X2 : x * x <= k * k) by (apply abs_le; exact X). assert (Y2 : y * y <= k * k) by (apply abs_le; exact Y). assert (Z2 : z * z <= k * k) by (apply abs_le; exact Z).
  fold t in A, B, G. assert (KT : k * k <= t * t) by nra.
  (** lower every diagonal entry to t *)
  assert (BG : z * z <= b * g) by nra.
  assert (S1 : t * (b * g - z * z) <= a * (b * g - z * z)) by (apply Rmult_le_compat_r; lra).
  assert (TG : y * y <= t * g) by nra.
  assert (S2 : t * (t * g - y * y) <= b * (t * g - y * y)) by (apply Rmult_le_compat_r; lra).
  assert (TT : x * x <= t * t) by nra.
  assert (S3 : t * (t * t - x * x) <= g * (t * t - x * x)) by (apply Rmult_le_compat_r; lra).
  assert (XY : - (k * k) <= x * y <= k * k) by nra.
  assert (XYZ : - (k * k * k) <= x * y * z) by nra.
  assert (P : 0 < t * t * t - t * (3 * (k * k)) - 2 * (k * k * k)).
  { replace (t * t * t - t * (3 * (k * k)) - 2 * (k * k * k)) with ((t - 2 * k) * ((t + k) * (t + k))) by ring. apply Rmult_lt_0_compat; [lra|]. apply Rmult_lt_0_compat; lra. }
  assert (U : t * (x * x + y * y + z * z) <= t * (3 * (k * k))) by (apply Rmult_le_compat_l; [unfold t; lra|lra]).
  lra.
Qed.
Definition uniform (e : six) : Prop := (0 <= r0 e < 1) /\ (0 <= r1 e < 1) /\ (0 <= r2 e < 1) /\ (0 <= r3 e < 1) /\ (0 <= r4 e < 1) /\ (0 <= r5 e < 1).
Lemma scaled f k u : 0 <= f -> 0 <= u < 1 -> 0 <= k -> - (k * f) <= k * f * (2 * u - 1) <= k * f.
Proof. intros. assert (0 <= k * f) by (apply Rmult_le_pos; assumption). split; nra. Qed.
Lemma volume_sign f e u v w : 0 <= f -> f < 1 / 2 -> uniform e -> exists k, 0 < k /\ volume (S6 f e u) (S6 f e v) (S6 f e w) = k * volume u v w.
Proof.
  intros F0 F1 (U0 & U1 & U2 & U3 & U4 & U5). unfold S6, drawn. rewrite strain_volume. eexists. split; [|reflexivity].
  pose proof (scaled f 1 _ F0 U0 ltac:(lra)). pose proof (scaled f 1 _ F0 U1 ltac:(lra)). pose proof (scaled f 1 _ F0 U2 ltac:(lra)).
  pose proof (scaled f (1 / 2) _ F0 U3 ltac:(lra)). pose proof (scaled f (1 / 2) _ F0 U4 ltac:(lra)). pose proof (scaled f (1 / 2) _ F0 U5 ltac:(lra)).
  apply (det_positive f); lra.
Qed.
Lemma right_handed {A} qr (s : structure A) n f d rand randn : decomposition qr -> 0 <= f < 1 / 2 -> (0 <= d \/ cart_coords s = []) -> (forall j, uniform (rand j)) ->
  let v := volume (row0 (lattice s)) (row1 (lattice s)) (row2 (lattice s)) in
  (0 < v -> exists outs, perturb qr s n f d rand randn = Ok outs /\ length outs = n) /\
  (v < 0 -> (0 < n)%nat -> perturb qr s n f d rand randn = Err AssertionError).
Proof.
  intros Q [F0 F1] D U v. destruct (all_ok qr Q s n f d rand randn F0 D) as [O1 O2]. split; intros V.
  - destruct O1 as (outs & E & L & _); [|now exists outs]. intros j _. unfold new_volume. destruct (volume_sign f (rand j) (row0 (lattice s)) (row1 (lattice s)) (row2 (lattice s)) F0 F1 (U j)) as (k & K & ->). apply Rmult_lt_0_compat; assumption.
  - intros N. assert (X : forall j, new_volume s f (rand j) < 0) by (intros j; unfold new_volume; destruct (volume_sign f (rand j) (row0 (lattice s)) (row1 (lattice s)) (row2 (lattice s)) F0 F1 (U j)) as (k & K & ->); fold v; nra). apply O2; [intros j _; specialize (X j); lra|exists 0%nat; split; [exact N|apply X]].
Qed.
Definition lowest : six := {| r0 := 0; r1 := 0; r2 := 0; r3 := 0; r4 := 0; r5 := 0 |}.
Lemma lowest_uniform : uniform lowest.
Proof. unfold uniform, lowest. cbn. lra. Qed.
Lemma half_sharp {A} qr (s : structure A) n f d randn : decomposition qr -> 1 / 2 < f < 2 -> (0 <= d \/ cart_coords s = []) -> (0 < n)%nat ->
  0 < volume (row0 (lattice s)) (row1 (lattice s)) (row2 (lattice s)) -> perturb qr s n f d (fun _ => lowest) randn = Err AssertionError.
Proof.
  intros Q F D N V. assert (X : new_volume s f lowest < 0).
  { unfold new_volume, S6, drawn. rewrite strain_volume. cbn [lowest r0 r1 r2 r3 r4 r5]. set (v := volume _ _ _) in *.
    match goal with |- ?k * v < 0 => assert (K : k = (1 - 2 * f) * ((1 - f / 2) * (1 - f / 2))) by field; rewrite K end. assert (0 < (1 - f / 2) * (1 - f / 2)) by (apply Rmult_lt_0_compat; lra). assert ((1 - 2 * f) * ((1 - f / 2) * (1 - f / 2)) < 0) by nra. nra. }
  destruct (all_ok qr Q s n f d (fun _ => lowest) randn) as [_ O2]; [lra|exact D|]. apply O2; [intros; lra|]. exists 0%nat. auto.
Qed.
