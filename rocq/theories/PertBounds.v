(** Fractional coordinates, displacements and edge lengths; a routine that decomposes every matrix. *)
From Verif Require Import PertModel PertSpec PertProofs PertFinal.
From Coq Require Import Psatz.
Local Open Scope R_scope.

Lemma strain_linear xx yy zz yz xz xy : linear (strain xx yy zz yz xz xy).
Proof. intros k u v. open3. unfold strain. unf. eq3; ring. Qed.
Lemma S6_linear f e : linear (S6 f e).
Proof. apply strain_linear. Qed.
Lemma linear3 F x y z a b c : linear F -> F (plus3 (times3 x a) (plus3 (times3 y b) (times3 z c))) = plus3 (times3 x (F a)) (plus3 (times3 y (F b)) (times3 z (F c))).
Proof.
  intros L. rewrite L, L. f_equal. f_equal. assert (Z : F (0, 0, 0) = (0, 0, 0)).
  { pose proof (L (-1) (0, 0, 0) (0, 0, 0)) as X. replace (plus3 (times3 (-1) (0, 0, 0)) (0, 0, 0)) with ((0, 0, 0) : R3) in X by (unf; eq3; ring). destruct (F (0, 0, 0)) as [[p q] r]. unf. injection X as X1 X2 X3. eq3; lra. }
  pose proof (L z c (0, 0, 0)) as X. replace (plus3 (times3 z c) (0, 0, 0)) with (times3 z c) in X by (open3; unf; eq3; ring). rewrite X, Z. destruct (F c) as [[p q] r]. unf. eq3; ring.
Qed.
Lemma length_times k u : 0 <= k -> length3 (times3 k u) = k * length3 u.
Proof.
  intros K. unfold length3. rewrite inner_times, inner_times_r. rewrite <- Rmult_assoc. rewrite sqrt_mult_alt by nra. rewrite sqrt_square by exact K. reflexivity.
Qed.
Lemma rotation_length W u : rotation W -> length3 (W u) = length3 u.
Proof. intros (_ & I & _). unfold length3. now rewrite I. Qed.
Lemma fractional {A} (s : structure A) f d e randn out : 0 <= d -> perturbed s f d e randn out ->
  forall k v x y z, nth_error (cart_coords s) k = Some v ->
  v = plus3 (times3 x (row0 (lattice s))) (plus3 (times3 y (row1 (lattice s))) (times3 z (row2 (lattice s)))) ->
  exists u, length3 u = d / sqrt 3 * length3 (randn k) /\
  nth_error (cart_coords out) k = Some (plus3 (plus3 (times3 x (row0 (lattice out))) (plus3 (times3 y (row1 (lattice out))) (times3 z (row2 (lattice out))))) u).
Proof.
  intros D (W & Rw & _ & Lo & _ & _ & P) k v x y z Hk Hv. exists (W (times3 (d / sqrt 3) (randn k))). split.
  - rewrite rotation_length by exact Rw. apply length_times. apply Rmult_le_pos; [exact D|]. apply Rlt_le, Rinv_0_lt_compat, sqrt_lt_R0. lra.
  - rewrite (P k v Hk). f_equal. destruct Rw as (Lw & _). rewrite Lo. cbn [row0 row1 row2 fst snd]. pose proof (Lw 1 (S6 f e v) (times3 (d / sqrt 3) (randn k))) as X.
    replace (times3 1 (S6 f e v)) with (S6 f e v) in X by (destruct (S6 f e v) as [[? ?] ?]; unf; eq3; ring). rewrite X. replace (times3 1 (W (S6 f e v))) with (W (S6 f e v)) by (destruct (W (S6 f e v)) as [[? ?] ?]; unf; eq3; ring).
    f_equal. rewrite Hv. rewrite linear3 by apply S6_linear. rewrite linear3 by exact Lw. reflexivity.
Qed.

(** ** Lengths *)
Lemma inner_pos u : 0 <= inner u u.
Proof. open3. unf. nra. Qed.
Lemma length_sq u : length3 u * length3 u = inner u u.
Proof. apply sqrt_sqrt, inner_pos. Qed.
Lemma length_pos u : 0 <= length3 u.
Proof. apply sqrt_pos. Qed.
Lemma lagrange u v : inner u v * inner u v <= inner u u * inner v v.
Proof.
  destruct u as [[a b] c], v as [[x y] z]. unf. assert (0 <= (a * y - b * x) * (a * y - b * x) + (a * z - c * x) * (a * z - c * x) + (b * z - c * y) * (b * z - c * y)) by (repeat apply Rplus_le_le_0_compat; apply Rle_0_sqr). lra.
Qed.
Lemma cauchy3 u v : - (length3 u * length3 v) <= inner u v <= length3 u * length3 v.
Proof.
  pose proof (lagrange u v) as L. rewrite <- (length_sq u), <- (length_sq v) in L. pose proof (length_pos u). pose proof (length_pos v). assert (P : 0 <= length3 u * length3 v) by (apply Rmult_le_pos; assumption). assert (L' : inner u v * inner u v <= (length3 u * length3 v) * (length3 u * length3 v)) by lra. remember (inner u v) as i. remember (length3 u * length3 v) as p. clear - L' P. split; nra.
Qed.
Lemma triangle u w k : length3 w <= k * length3 u -> Rabs (length3 (plus3 u w) - length3 u) <= k * length3 u.
Proof.
  intros H. pose proof (cauchy3 u w) as C. pose proof (length_pos u) as Pu. pose proof (length_pos w) as Pw. pose proof (length_pos (plus3 u w)) as Ps.
  assert (E : length3 (plus3 u w) * length3 (plus3 u w) = length3 u * length3 u + 2 * inner u w + length3 w * length3 w) by (rewrite !length_sq, inner_plus, !inner_plus_r, (inner_sym w u); ring).
  assert (U : length3 (plus3 u w) <= length3 u + length3 w) by nra. assert (L : length3 u - length3 w <= length3 (plus3 u w)) by nra. apply Rabs_le. lra.
Qed.
Lemma strain_small f xx yy zz yz xz xy v : 0 <= f -> - f <= xx <= f -> - f <= yy <= f -> - f <= zz <= f -> - (f / 2) <= yz <= f / 2 -> - (f / 2) <= xz <= f / 2 -> - (f / 2) <= xy <= f / 2 ->
  exists w, strain xx yy zz yz xz xy v = plus3 v w /\ length3 w <= 2 * f * length3 v.
Proof.
  intros F A B C D E G. destruct v as [[x y] z]. exists (xx * x + xy * y + xz * z, xy * x + yy * y + yz * z, xz * x + yz * y + zz * z). split; [unfold strain; unf; eq3; ring|].
  set (X := Rabs x). set (Y := Rabs y). set (H := Rabs z).
  assert (M : forall k c u, 0 <= c -> - c <= k <= c -> Rabs (k * u) <= c * Rabs u) by (intros k c u C0 K; rewrite Rabs_mult; apply Rmult_le_compat_r; [apply Rabs_pos|]; apply Rabs_le; exact K).
  assert (T : forall a b c, Rabs (a + b + c) <= Rabs a + Rabs b + Rabs c) by (intros a b c; eapply Rle_trans; [apply Rabs_triang|]; apply Rplus_le_compat_r, Rabs_triang).
  assert (SQ : forall a b, 0 <= b -> Rabs a <= b -> a * a <= b * b) by (intros a b Hb Ha; pose proof (Rabs_pos a); replace (a * a) with (Rabs a * Rabs a) by (rewrite <- Rabs_mult; apply Rabs_pos_eq; nra); nra).
  assert (PX : 0 <= X) by apply Rabs_pos. assert (PY : 0 <= Y) by apply Rabs_pos. assert (PZ : 0 <= H) by apply Rabs_pos.
  assert (R1 : Rabs (xx * x + xy * y + xz * z) <= f * (X + Y / 2 + H / 2)) by (eapply Rle_trans; [apply T|]; pose proof (M xx f x F A); pose proof (M xy (f / 2) y ltac:(lra) G); pose proof (M xz (f / 2) z ltac:(lra) E); unfold X, Y, H in *; lra).
  assert (R2 : Rabs (xy * x + yy * y + yz * z) <= f * (X / 2 + Y + H / 2)) by (eapply Rle_trans; [apply T|]; pose proof (M xy (f / 2) x ltac:(lra) G); pose proof (M yy f y F B); pose proof (M yz (f / 2) z ltac:(lra) D); unfold X, Y, H in *; lra).
  assert (R3' : Rabs (xz * x + yz * y + zz * z) <= f * (X / 2 + Y / 2 + H)) by (eapply Rle_trans; [apply T|]; pose proof (M xz (f / 2) x ltac:(lra) E); pose proof (M yz (f / 2) y ltac:(lra) D); pose proof (M zz f z F C); unfold X, Y, H in *; lra).
  apply SQ in R1; [|apply Rmult_le_pos; lra]. apply SQ in R2; [|apply Rmult_le_pos; lra]. apply SQ in R3'; [|apply Rmult_le_pos; lra].
  assert (X2 : X * X = x * x) by (unfold X; rewrite <- Rabs_mult; apply Rabs_pos_eq; nra). assert (Y2 : Y * Y = y * y) by (unfold Y; rewrite <- Rabs_mult; apply Rabs_pos_eq; nra). assert (Z2 : H * H = z * z) by (unfold H; rewrite <- Rabs_mult; apply Rabs_pos_eq; nra).
  rewrite <- (length_times (2 * f)) by lra. unfold length3. apply sqrt_le_1_alt. unfold inner, times3.
  assert (K : (X + Y / 2 + H / 2) * (X + Y / 2 + H / 2) + (X / 2 + Y + H / 2) * (X / 2 + Y + H / 2) + (X / 2 + Y / 2 + H) * (X / 2 + Y / 2 + H) <= 4 * (X * X + Y * Y + H * H)) by (assert (0 <= (X - Y) * (X - Y)) by (apply Rle_0_sqr); assert (0 <= (X - H) * (X - H)) by (apply Rle_0_sqr); assert (0 <= (Y - H) * (Y - H)) by (apply Rle_0_sqr); lra).
  assert (FF : 0 <= f * f) by (apply Rle_0_sqr). apply (Rmult_le_compat_l (f * f)) in K; [|exact FF]. rewrite X2, Y2, Z2 in K. lra.
Qed.
Lemma edges {A} (s : structure A) f d e randn out : 0 <= f -> uniform e -> perturbed s f d e randn out ->
  Rabs (length3 (row0 (lattice out)) - length3 (row0 (lattice s))) <= 2 * f * length3 (row0 (lattice s)) /\
  Rabs (length3 (row1 (lattice out)) - length3 (row1 (lattice s))) <= 2 * f * length3 (row1 (lattice s)) /\
  Rabs (length3 (row2 (lattice out)) - length3 (row2 (lattice s))) <= 2 * f * length3 (row2 (lattice s)).
Proof.
  intros F (U0 & U1 & U2 & U3 & U4 & U5) (W & Rw & _ & Lo & _). rewrite Lo. cbn [row0 row1 row2 fst snd]. rewrite !(rotation_length W) by exact Rw.
  assert (X : forall v, Rabs (length3 (S6 f e v) - length3 v) <= 2 * f * length3 v); [|repeat split; apply X].
  intros v. unfold S6, drawn.
  pose proof (scaled f 1 _ F U0 ltac:(lra)). pose proof (scaled f 1 _ F U1 ltac:(lra)). pose proof (scaled f 1 _ F U2 ltac:(lra)).
  pose proof (scaled f (1 / 2) _ F U3 ltac:(lra)). pose proof (scaled f (1 / 2) _ F U4 ltac:(lra)). pose proof (scaled f (1 / 2) _ F U5 ltac:(lra)).
  match goal with |- context [strain ?a ?b ?c ?d ?g ?h v] => destruct (strain_small f a b c d g h v) as (w & -> & Hw) end; try lra. now apply triangle.
Qed.

(** ** Gram and Schmidt: a decomposition of every matrix of non-zero determinant *)
Definition unit3 (u : R3) : R3 := times3 (/ length3 u) u.
Definition cross3 (u v : R3) : R3 := let '(a, b, c) := u in let '(d, e, f) := v in (b * f - c * e, c * d - a * f, a * e - b * d).
Definition gs (m : mat) : mat * mat :=
  let a := column 0 m in let b := column 1 m in let c := column 2 m in
  let q0 := unit3 a in
  let q1 := unit3 (plus3 b (times3 (- inner b q0) q0)) in
  let q2 := cross3 q0 q1 in
  (transpose (q0, q1, q2), ((inner a q0, inner b q0, inner c q0), (0, inner b q1, inner c q1), (0, 0, inner c q2))).
Lemma nonzero_length u : u <> (0, 0, 0) -> 0 < length3 u.
Proof.
  intros N. apply sqrt_lt_R0. destruct u as [[a b] c]. unf. destruct (Req_dec a 0) as [->|]; [destruct (Req_dec b 0) as [->|]; [destruct (Req_dec c 0) as [->|]; [contradiction|]|]|]; nra.
Qed.
Lemma unit_unit u : u <> (0, 0, 0) -> inner (unit3 u) (unit3 u) = 1.
Proof. intros N. apply nonzero_length in N. unfold unit3. rewrite inner_times, inner_times_r, <- length_sq. field. lra. Qed.
Lemma unit_inner u v : inner (unit3 u) v = / length3 u * inner u v.
Proof. apply inner_times. Qed.
Lemma unit_back u : u <> (0, 0, 0) -> times3 (length3 u) (unit3 u) = u.
Proof. intros N. apply nonzero_length in N. unfold unit3. destruct u as [[a b] c]. remember (length3 (a, b, c)) as l. unf. eq3; field; lra. Qed.
Lemma unit_self u : u <> (0, 0, 0) -> inner u (unit3 u) = length3 u.
Proof. intros N. apply nonzero_length in N. unfold unit3. rewrite inner_times_r, <- length_sq. field. lra. Qed.
Lemma cross_ortho u v : inner u u = 1 -> inner v v = 1 -> inner u v = 0 -> orthonormal u v (cross3 u v).
Proof.
  intros A B C. repeat split; auto; [|destruct u as [[? ?] ?], v as [[? ?] ?]; unfold cross3; unf; ring..].
  assert (X : inner (cross3 u v) (cross3 u v) = inner u u * inner v v - inner u v * inner u v) by (destruct u as [[? ?] ?], v as [[? ?] ?]; unfold cross3; unf; ring). rewrite X, A, B, C. ring.
Qed.
Lemma gs_ok : decomposition gs.
Proof.
  intros m V. unfold gs. set (a := column 0 m) in *. set (b := column 1 m) in *. set (c := column 2 m) in *. cbn zeta. cbn [fst snd].
  assert (Na : a <> (0, 0, 0)) by (intros E; apply V; rewrite E; clear; destruct b as [[? ?] ?], c as [[? ?] ?]; unf; ring).
  set (q0 := unit3 a) in *. set (y := plus3 b (times3 (- inner b q0) q0)).
  assert (Ny : y <> (0, 0, 0)).
  { intros E. apply V. assert (Eb : b = times3 (inner b q0 / length3 a) a).
    { unfold y in E. assert (b = times3 (inner b q0) q0) as Z by (remember (inner b q0) as k; clear - E; destruct b as [[? ?] ?], q0 as [[? ?] ?]; unf; injection E as E1 E2 E3; eq3; lra). rewrite Z at 1. unfold q0 at 2, unit3. unfold Rdiv. remember (inner b q0) as k. remember (/ length3 a) as h. clear. destruct a as [[? ?] ?]. unf. eq3; ring. }
    rewrite Eb. remember (inner b q0 / length3 a) as k. clear. destruct a as [[? ?] ?], c as [[? ?] ?]. unf. ring. }
  assert (A1 : inner q0 q0 = 1) by now apply unit_unit. assert (B1 : inner (unit3 y) (unit3 y) = 1) by now apply unit_unit.
  assert (C1 : inner q0 (unit3 y) = 0).
  { rewrite inner_sym, unit_inner. unfold y. rewrite inner_plus, inner_times, A1, (inner_sym b q0). ring. }
  set (q1 := unit3 y) in *. pose proof (cross_ortho q0 q1 A1 B1 C1) as O. set (q2 := cross3 q0 q1) in *.
  assert (T : column 0 (transpose (q0, q1, q2)) = q0 /\ column 1 (transpose (q0, q1, q2)) = q1 /\ column 2 (transpose (q0, q1, q2)) = q2) by (clear; clearbody q0 q1 q2; destruct q0 as [[? ?] ?], q1 as [[? ?] ?], q2 as [[? ?] ?]; repeat split).
  destruct T as (T0 & T1 & T2). unfold decomposes. fold a b c. rewrite T0, T1, T2. split; [exact O|]. split; [reflexivity|]. split; [reflexivity|]. split; [reflexivity|]. split; [|split].
  - unfold q0 at 1. rewrite unit_self by exact Na. symmetry. now apply unit_back.
  - assert (Bq : inner b q2 = 0).
    { assert (Y2 : inner y q2 = 0) by (rewrite <- (unit_back y Ny); fold q1; rewrite inner_times; destruct O as (_ & _ & _ & _ & _ & O6); rewrite O6; ring).
      unfold y in Y2. rewrite inner_plus, inner_times in Y2. destruct O as (_ & _ & _ & _ & O5 & _). rewrite O5 in Y2. lra. }
    rewrite (expand q0 q1 q2 b O) at 1. rewrite Bq. clear. destruct (plus3 (times3 (inner b q0) q0) (times3 (inner b q1) q1)) as [[? ?] ?], q2 as [[? ?] ?]. unf. eq3; ring.
  - apply (expand q0 q1 q2 c O).
Qed.
