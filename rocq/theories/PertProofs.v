(** Proofs about the perturbation of structures. *)
From Verif Require Import PertModel PertSpec.
From Coq Require Import Psatz.
Local Open Scope R_scope.

Ltac open3 := repeat match goal with v : R3 |- _ => destruct v as [[? ?] ?] | v : vec |- _ => destruct v as [[? ?] ?] | v : (R * R * R)%type |- _ => destruct v as [[? ?] ?] end.
Ltac unf := unfold volume, orthonormal, column, inner, plus3, times3, mdet, mmul, vmul, transpose, mneg, col0, col1, col2, row0, row1, row2, det, cross, dot, vscale, vsub, vadd, vx, vy, vz in *; cbn [fst snd] in *.
Ltac eq3 := match goal with |- @eq R _ _ => idtac | |- @eq _ (_, _) (_, _) => f_equal; eq3 | _ => idtac end.

Lemma inner_dot u v : inner u v = dot u v.
Proof. open3. reflexivity. Qed.
Lemma volume_det u v w : volume u v w = det u v w.
Proof. open3. unf. ring. Qed.
Lemma gram u v w : volume u v w * volume u v w =
  inner u u * (inner v v * inner w w - inner v w * inner v w) - inner u v * (inner u v * inner w w - inner v w * inner u w) + inner u w * (inner u v * inner v w - inner v v * inner u w).
Proof. open3. unf. ring. Qed.
Lemma ortho_volume u v w : orthonormal u v w -> volume u v w * volume u v w = 1.
Proof. intros (A & B & C & D & E & F). rewrite gram, A, B, C, D, E, F. ring. Qed.
(** Cramer's rule. *)
Lemma cramer u v w x : times3 (volume u v w) x =
  plus3 (plus3 (times3 (inner x u) (let '(a, b, c) := v in let '(d, e, f) := w in (b * f - c * e, c * d - a * f, a * e - b * d)))
               (times3 (inner x v) (let '(a, b, c) := w in let '(d, e, f) := u in (b * f - c * e, c * d - a * f, a * e - b * d))))
        (times3 (inner x w) (let '(a, b, c) := u in let '(d, e, f) := v in (b * f - c * e, c * d - a * f, a * e - b * d))).
Proof. open3. unf. eq3; ring. Qed.
Lemma orthogonal_zero u v w x : volume u v w <> 0 -> inner x u = 0 -> inner x v = 0 -> inner x w = 0 -> x = (0, 0, 0).
Proof.
  intros V A B C. pose proof (cramer u v w x) as X. rewrite A, B, C in X. set (k := volume u v w) in *. clearbody k. open3. cbn in X. injection X as X1 X2 X3.
  f_equal; [f_equal|]; apply (Rmult_eq_reg_l k); auto; [rewrite X1|rewrite X2|rewrite X3]; ring.
Qed.
Lemma inner_plus u v w : inner (plus3 u v) w = inner u w + inner v w.
Proof. open3. unf. ring. Qed.
Lemma inner_plus_r u v w : inner u (plus3 v w) = inner u v + inner u w.
Proof. open3. unf. ring. Qed.
Lemma inner_times k u v : inner (times3 k u) v = k * inner u v.
Proof. open3. unf. ring. Qed.
Lemma inner_times_r k u v : inner u (times3 k v) = k * inner u v.
Proof. open3. unf. ring. Qed.
Lemma inner_sym u v : inner u v = inner v u.
Proof. open3. unf. ring. Qed.
(** A vector is the sum of its components along an orthonormal triple. *)
Lemma expand a b c x : orthonormal a b c -> x = plus3 (plus3 (times3 (inner x a) a) (times3 (inner x b) b)) (times3 (inner x c) c).
Proof.
  intros O. assert (V : volume a b c <> 0) by (pose proof (ortho_volume _ _ _ O); nra). destruct O as (A & B & C & D & E & F).
  set (y := plus3 (plus3 (times3 (inner x a) a) (times3 (inner x b) b)) (times3 (inner x c) c)).
  assert (Z : plus3 x (times3 (-1) y) = (0, 0, 0)).
  { apply (orthogonal_zero a b c); [exact V|..]; unfold y; rewrite inner_plus, inner_times, !inner_plus, !inner_times, ?A, ?B, ?C, ?D, ?E, ?F, ?(inner_sym b a), ?(inner_sym c a), ?(inner_sym c b), ?D, ?E, ?F; ring. }
  clearbody y. clear - Z. open3. unf. injection Z as Z1 Z2 Z3. eq3; lra.
Qed.
Lemma parseval a b c x y : orthonormal a b c -> inner x a * inner y a + inner x b * inner y b + inner x c * inner y c = inner x y.
Proof. intros O. pose proof (f_equal (fun z => inner z y) (expand a b c x O)) as X. cbn beta in X. rewrite X. clear X. rewrite !inner_plus, !inner_times, !(inner_sym _ y). ring. Qed.

(** Multiplying by a matrix with orthonormal columns. *)
Lemma vmul_inner v m : vmul v m = (inner v (column 0 m), inner v (column 1 m), inner v (column 2 m)).
Proof. destruct m as [[a b] c]. open3. reflexivity. Qed.
Definition ortho (q : mat) : Prop := orthonormal (column 0 q) (column 1 q) (column 2 q).
Lemma vmul_volume u v w m : volume (vmul u m) (vmul v m) (vmul w m) = volume u v w * mdet m.
Proof. destruct m as [[a b] c]. open3. unf. ring. Qed.
Lemma vmul_linear m : linear (fun v => vmul v m).
Proof. intros k u v. destruct m as [[a b] c]. open3. unf. eq3; ring. Qed.
Lemma mdet_columns m : mdet m = volume (column 0 m) (column 1 m) (column 2 m).
Proof. destruct m as [[a b] c]. open3. unf. ring. Qed.
Lemma ortho_rotation q : ortho q -> mdet q = 1 -> rotation (fun v => vmul v q).
Proof.
  intros O D. split; [apply vmul_linear|]. split.
  - intros u v. rewrite !vmul_inner. cbn [inner]. apply parseval. exact O.
  - intros u v w. rewrite vmul_volume, D. ring.
Qed.
Lemma rotation_comp f g : rotation f -> rotation g -> rotation (fun v => g (f v)).
Proof.
  intros (A & B & C) (D & E & F). split; [|split]; [intros k u v; rewrite A, D; reflexivity|intros u v; rewrite E, B; reflexivity|intros u v w; rewrite F, C; reflexivity].
Qed.
Lemma rot_rotation a b c : a * a = 1 -> b * b = 1 -> c * c = 1 -> a * b * c = 1 -> rotation (fun v => vmul v ((a, 0, 0), (0, b, 0), (0, 0, c))).
Proof.
  intros A B C D. apply ortho_rotation; [|unf; lra]. unfold ortho. unf. repeat split; lra.
Qed.
Lemma sign_sq x : sign_of x * sign_of x = 1.
Proof. unfold sign_of. destruct (Rlt_dec x 0); ring. Qed.
Lemma sign_abs x : x <> 0 -> 0 < x * sign_of x.
Proof. unfold sign_of. destruct (Rlt_dec x 0); intros; nra. Qed.
Lemma sign_prod a b c : a * b * c <> 0 -> (0 < a * b * c -> sign_of a * sign_of b * sign_of c = 1) /\ (a * b * c < 0 -> sign_of a * sign_of b * sign_of c = -1).
Proof.
  intros N. assert (Na : a <> 0) by (intros ->; apply N; ring). assert (Nb : b <> 0) by (intros ->; apply N; ring). assert (Nc : c <> 0) by (intros ->; apply N; ring).
  pose proof (sign_abs a Na) as A. pose proof (sign_abs b Nb) as B. pose proof (sign_abs c Nc) as C.
  assert (P : 0 < (a * b * c) * (sign_of a * sign_of b * sign_of c)) by (replace (a * b * c * (sign_of a * sign_of b * sign_of c)) with ((a * sign_of a) * (b * sign_of b) * (c * sign_of c)) by ring; apply Rmult_lt_0_compat; [apply Rmult_lt_0_compat|]; assumption).
  unfold sign_of in *. destruct (Rlt_dec a 0), (Rlt_dec b 0), (Rlt_dec c 0); split; intros; lra || nra.
Qed.

(** ** The rotation into standard form *)
Section Rot.
Variable qr : mat -> mat * mat.
Hypothesis Q : decomposition qr.
Context {A : Type}.

Lemma transpose_columns (m : mat) : column 0 (transpose m) = row0 m /\ column 1 (transpose m) = row1 m /\ column 2 (transpose m) = row2 m.
Proof. destruct m as [[a b] c]. open3. repeat split. Qed.
Lemma flip_ortho q : ortho q -> ortho (mneg q).
Proof. destruct q as [[a b] c]. open3. unfold ortho. unf. intros (H1 & H2 & H3 & H4 & H5 & H6). repeat split; lra. Qed.
Lemma flip_det q : mdet (mneg q) = - mdet q.
Proof. destruct q as [[a b] c]. open3. unf. ring. Qed.

(** What the code uses instead of the orthogonal factor. *)
Lemma factor (cell : mat) : volume (row0 cell) (row1 cell) (row2 cell) <> 0 ->
  let q := (if Rlt_dec (mdet (fst (qr (transpose cell)))) 0 then mneg (fst (qr (transpose cell))) else fst (qr (transpose cell))) in
  ortho q /\ mdet q = 1 /\ vy (vmul (row0 cell) q) = 0 /\ vz (vmul (row0 cell) q) = 0 /\ vz (vmul (row1 cell) q) = 0.
Proof.
  intros V. destruct (transpose_columns cell) as (T0 & T1 & T2). assert (V' := V). rewrite <- T0, <- T1, <- T2 in V'. pose proof (Q _ V') as QQ. unfold decomposes in QQ. rewrite T0, T1, T2 in QQ. clear V'.
  destruct (qr (transpose cell)) as [q0 r]. unfold R3, vec in *. cbn [fst snd] in *. destruct r as [[[[r00 r01] r02] [[r10 r11] r12]] [[r20 r21] r22]]. destruct QQ as (O & _ & _ & _ & C0 & C1 & _).
  assert (Z : vy (vmul (row0 cell) q0) = 0 /\ vz (vmul (row0 cell) q0) = 0 /\ vz (vmul (row1 cell) q0) = 0).
  { rewrite !vmul_inner. unfold vy, vz. cbn [fst snd]. rewrite C0, C1, !inner_plus, !inner_times. destruct O as (O1 & O2 & O3 & O4 & O5 & O6). rewrite O4, O5, O6. repeat split; ring. }
  pose proof (ortho_volume _ _ _ O) as D. rewrite <- mdet_columns in D. destruct (Rlt_dec (mdet q0) 0) as [L|L]; cbn zeta.
  - split; [now apply flip_ortho|]. split; [rewrite flip_det; nra|]. assert (X : forall v, vmul v (mneg q0) = times3 (-1) (vmul v q0)) by (intros v; destruct q0 as [[? ?] ?]; open3; unf; eq3; ring). rewrite !X. clear - Z. destruct (vmul (row0 cell) q0) as [[? ?] ?], (vmul (row1 cell) q0) as [[? ?] ?]. unf. lra.
  - split; [exact O|]. split; [nra|exact Z].
Qed.
Definition finish (cell : mat) (coords : list vec) (sp : list A) : result (structure A) :=
  let rot : mat := ((sign_of (vx (row0 cell)), 0, 0), (0, sign_of (vy (row1 cell)), 0), (0, 0, sign_of (vz (row2 cell)))) in
  if Req_EM_T (mdet rot) 1 then
    Ok {| lattice := mmul cell rot; species := sp; cart_coords := map (fun v => vmul v rot) coords |}
  else Err AssertionError.
Lemma finish_ok (a b c : vec) coords sp : vy a = 0 -> vz a = 0 -> vz b = 0 -> volume a b c <> 0 ->
  (0 < volume a b c -> exists out W, finish (a, b, c) coords sp = Ok out /\ rotation W /\
     standard_cell (row0 (lattice out)) (row1 (lattice out)) (row2 (lattice out)) /\
     lattice out = (W a, W b, W c) /\ species out = sp /\ cart_coords out = map W coords) /\
  (volume a b c < 0 -> finish (a, b, c) coords sp = Err AssertionError).
Proof.
  intros Z1 Z2 Z3 V. destruct a as [[ax ay] az], b as [[bx by_] bz], c as [[cx cy] cz]. cbn in Z1, Z2, Z3. subst ay az bz. unfold finish. cbn [vx vy vz fst snd row0 row1 row2].
  assert (P : volume (ax, 0, 0) (bx, by_, 0) (cx, cy, cz) = ax * by_ * cz) by (unf; ring). rewrite P in *. destruct (sign_prod ax by_ cz V) as [S1 S2].
  assert (M : mdet ((sign_of ax, 0, 0), (0, sign_of by_, 0), (0, 0, sign_of cz)) = sign_of ax * sign_of by_ * sign_of cz) by (unf; ring).
  split; intros H.
  - specialize (S1 H). destruct (Req_EM_T _ 1) as [_|N]; [|exfalso; apply N; rewrite M; exact S1].
    eexists. exists (fun u => vmul u ((sign_of ax, 0, 0), (0, sign_of by_, 0), (0, 0, sign_of cz))). split; [reflexivity|]. cbn [lattice species cart_coords]. split; [|split; [|split; [|split; reflexivity]]].
    + apply rot_rotation; try apply sign_sq. exact S1.
    + assert (Nz : ax <> 0 /\ by_ <> 0 /\ cz <> 0) by (repeat split; intros ->; apply V; ring). destruct Nz as (N1 & N2 & N3). apply sign_abs in N1, N2, N3.
      unfold standard_cell. clear - N1 N2 N3. unf. repeat split; try ring; lra.
    + reflexivity.
  - specialize (S2 H). destruct (Req_EM_T _ 1) as [N|_]; [|reflexivity]. rewrite M, S2 in N. lra.
Qed.
Lemma rot_ok (cell : mat) coords (sp : list A) :
  (0 < volume (row0 cell) (row1 cell) (row2 cell) -> exists out W, rot_lower_triangular qr cell coords sp = Ok out /\ rotation W /\
     standard_cell (row0 (lattice out)) (row1 (lattice out)) (row2 (lattice out)) /\
     lattice out = (W (row0 cell), W (row1 cell), W (row2 cell)) /\ species out = sp /\ cart_coords out = map W coords) /\
  (volume (row0 cell) (row1 cell) (row2 cell) < 0 -> rot_lower_triangular qr cell coords sp = Err AssertionError).
Proof.
  set (v := volume (row0 cell) (row1 cell) (row2 cell)). destruct (Req_dec v 0) as [V|V]; [split; intros; lra|]. destruct (factor cell V) as (O & D & Z1 & Z2 & Z3). cbn zeta in *.
  assert (E : rot_lower_triangular qr cell coords sp =
    (let q := if Rlt_dec (mdet (fst (qr (transpose cell)))) 0 then mneg (fst (qr (transpose cell))) else fst (qr (transpose cell)) in finish (vmul (row0 cell) q, vmul (row1 cell) q, vmul (row2 cell) q) (map (fun v => vmul v q) coords) sp)) by (unfold rot_lower_triangular; destruct (qr (transpose cell)); reflexivity).
  rewrite E. clear E. set (q := if Rlt_dec _ 0 then _ else _) in *. cbn zeta. clearbody q.
  pose proof (vmul_volume (row0 cell) (row1 cell) (row2 cell) q) as W. rewrite D, Rmult_1_r in W. fold v in W.
  destruct (finish_ok (vmul (row0 cell) q) (vmul (row1 cell) q) (vmul (row2 cell) q) (map (fun v => vmul v q) coords) sp Z1 Z2 Z3) as [F1 F2]; [rewrite W; exact V|]. rewrite W in F1, F2. split; [|exact F2].
  intros H. destruct (F1 H) as (out & w & E1 & E2 & E3 & E4 & E5 & E6). exists out, (fun u => w (vmul u q)). split; [exact E1|]. split; [apply (rotation_comp (fun u => vmul u q)); [now apply ortho_rotation|exact E2]|]. split; [exact E3|]. split; [exact E4|]. split; [exact E5|]. rewrite E6, map_map. reflexivity.
Qed.
End Rot.
