(** Concrete samplers for the path in reciprocal space. *)
From Coq Require Import String Reals Lra Lia.
From Verif Require Import Base Vec ElementModel NbModel NbSearchProofs KpathModel KpathSpec KpathProofs.
Local Open Scope string_scope.
Local Open Scope list_scope.
Local Open Scope R_scope.

Lemma written k d paths b1 b2 b3 density : symmetry_table d ->
  (k = 2%Z /\ paths <> []) \/ (k = 3%Z /\ forall p n, In p paths -> In n p -> In n (map fst d)) ->
  exists s out, kpath_sampler k d paths = Ok s /\ gen_kpt b1 b2 b3 density s = Ok out.
Proof.
  intros Hd H. destruct (sampler_total k d paths) as [s Hs]; [tauto|].
  destruct (gen_kpt_total k d paths s b1 b2 b3 density Hd Hs) as [out Ho]; [tauto|]. exists s, out. auto.
Qed.

Lemma neighbours d paths s q x y : symmetry_table d -> kpath_sampler 2 d paths = Ok s ->
  In q (kpaths s) -> follows x y q ->
  exists p named l1 gap l2, In p paths /\ Forall2 published p named /\ named = l1 ++ x :: gap ++ y :: l2 /\
    Forall (fun m => ~ exists v, offered 2 d m v) gap.
Proof.
  intros Hd Hs Hq Hf. destruct (sampler_paths _ _ _ _ Hd Hs) as (named & Hn & [[E _]|(_ & flat & F1 & F2)]); [discriminate|].
  apply (selects_in _ _ _ _ F2) in Hq. destruct Hq as [Hq _].
  destruct (Forall2_in_r _ _ _ _ F1 Hq) as (nm & Hnm & Hsel).
  destruct (Forall2_in_r _ _ _ _ Hn Hnm) as (p & Hp & Fp).
  destruct (selects_follows _ _ _ _ _ Hsel Hf) as (l1 & gap & l2 & E & G).
  exists p, nm, l1, gap, l2. auto.
Qed.

Definition hex_points : points :=
  [("\Gamma", (0, 0, 0)); ("A", (0, 0, 1/2)); ("H", (1/3, 1/3, 1/2)); ("K", (1/3, 1/3, 0));
   ("L", (1/2, 0, 1/2)); ("M", (1/2, 0, 0))].
Definition hex_paths : list (list string) :=
  [["\Gamma"; "M"; "K"; "\Gamma"; "A"; "L"; "H"; "A"]; ["L"; "M"]; ["K"; "H"]].
Lemma hex_table : symmetry_table hex_points.
Proof.
  split; cbn; [|intuition discriminate].
  repeat constructor; cbn; intuition discriminate.
Qed.
Lemma half_nz : 1 / 2 <> 0. Proof. lra. Qed.
Lemma hex_get : get_kpoints 2 hex_points = Ok [("K", (1/3, 1/3, 0)); ("M", (1/2, 0, 0)); ("G", (0, 0, 0))].
Proof.
  unfold get_kpoints. cbn [Z.eqb Pos.eqb]. f_equal.
  assert (E : rename_points hex_points = [("A", (0, 0, 1/2)); ("H", (1/3, 1/3, 1/2)); ("K", (1/3, 1/3, 0));
   ("L", (1/2, 0, 1/2)); ("M", (1/2, 0, 0)); ("G", (0, 0, 0))]) by reflexivity.
  rewrite E. cbn [fold_left fst snd vz].
  destruct (Req_EM_T (1/2) 0) as [H|_]; [destruct (half_nz H)|].
  destruct (Req_EM_T 0 0) as [_|H]; [|contradiction]. reflexivity.
Qed.
Lemma hex_case : symmetry_table hex_points /\ exists s, kpath_sampler 2 hex_points hex_paths = Ok s /\
  kpaths s = [["G"; "M"; "K"; "G"]] /\ highk s = [((1/3, 1/3, 0), "K"); ((1/2, 0, 0), "M"); ((0, 0, 0), "G")].
Proof.
  split; [exact hex_table|]. unfold kpath_sampler. rewrite hex_get. cbn [bind]. eexists. split; [reflexivity|].
  split; reflexivity.
Qed.

Lemma shortcut : exists d paths s q x y, symmetry_table d /\
  (forall p n, In p paths -> In n p -> In n (map fst d)) /\
  kpath_sampler 2 d paths = Ok s /\ In q (kpaths s) /\ follows x y q /\
  forall p named, In p paths -> Forall2 published p named -> ~ follows x y named.
Proof.
  exists hex_points, [["M"; "L"; "\Gamma"]].
  exists {| kpoints := [("K", (1/3, 1/3, 0)); ("M", (1/2, 0, 0)); ("G", (0, 0, 0))]; kpaths := [["M"; "G"]] |}.
  exists ["M"; "G"], "M", "G". split; [exact hex_table|]. split.
  { intros p n [<-|[]] Hn. cbn in Hn |- *. intuition (subst; auto 10). }
  split; [unfold kpath_sampler; rewrite hex_get; reflexivity|]. split; [left; reflexivity|]. split; [exists [], []; reflexivity|].
  intros p named [<-|[]] F (l1 & l2 & ->).
  assert (E : l1 ++ "M" :: "G" :: l2 = ["M"; "L"; "G"]).
  { revert F. generalize (l1 ++ "M" :: "G" :: l2). intros m F.
    inversion F as [|? a ? ? P1 F1]; subst. inversion F1 as [|? b ? ? P2 F2]; subst. inversion F2 as [|? c ? ? P3 F3]; subst.
    inversion F3; subst. destruct P1 as [[? ?]|[_ ->]]; [discriminate|]. destruct P2 as [[? ?]|[_ ->]]; [discriminate|].
    destruct P3 as [[_ ->]|[N _]]; [reflexivity|contradiction]. }
  destruct l1 as [|a [|b [|c l1]]]; cbn [app] in E; try discriminate.
  injection E as _ _ _ E. destruct l1; discriminate.
Qed.

(** The reciprocal vectors (without the factor 2 pi) of the cell with edges (a, 0, 0) and
    (-a/2, a sqrt 3 / 2, 0). *)
Definition hex1 (a : R) : vec := (1 / a, 1 / (a * sqrt 3), 0).
Definition hex2 (a : R) : vec := (0, 2 / (a * sqrt 3), 0).

Lemma sqrt3_pos : 0 < sqrt 3. Proof. apply sqrt_lt_R0. lra. Qed.
Lemma sqrt3_sq : sqrt 3 * sqrt 3 = 3. Proof. apply sqrt_sqrt. lra. Qed.
Lemma inv_sqrt3 a : 0 < a -> 1 / (a * sqrt 3) * (1 / (a * sqrt 3)) = 1 / (a * a) / 3.
Proof.
  intros H. pose proof sqrt3_pos. replace (1 / (a * sqrt 3) * (1 / (a * sqrt 3))) with (1 / (a * a) / (sqrt 3 * sqrt 3)) by (field; lra).
  rewrite sqrt3_sq. reflexivity.
Qed.
Lemma hex_forms a : 0 < a -> let q := 1 / (a * a) in
  norm2 (hex1 a) = 4 / 3 * q /\ norm2 (hex2 a) = 4 / 3 * q /\ dot (hex1 a) (hex2 a) = 2 / 3 * q /\
  norm2 (col1 (hex1 a) (hex2 a) (0, 0, 1)) = q /\ norm2 (col2 (hex1 a) (hex2 a) (0, 0, 1)) = 5 / 3 * q.
Proof.
  intros H q. pose proof (inv_sqrt3 a H) as I. fold q in I. pose proof sqrt3_pos as P.
  set (w := 1 / (a * sqrt 3)) in *.
  assert (W2 : 2 / (a * sqrt 3) = 2 * w) by (unfold w; field; lra).
  assert (A : 1 / a * (1 / a) = q) by (unfold q; field; lra).
  unfold hex1, hex2. rewrite W2. fold w. unfold col1, col2. vec_unfold. repeat split.
  - rewrite A, I. lra.
  - replace (2 * w * (2 * w)) with (4 * (w * w)) by ring. rewrite I. lra.
  - replace (w * (2 * w)) with (2 * (w * w)) by ring. rewrite I. lra.
  - rewrite A. lra.
  - replace (2 * w * (2 * w)) with (4 * (w * w)) by ring. rewrite I. lra.
Qed.
Lemma hexagonal a : 0 < a ->
  path_length (hex1 a) (hex2 a) (0, 0, 1) (0, 0, 0) (1/2, 0, 0) < true_length (hex1 a) (hex2 a) (0, 0, 1) (0, 0, 0) (1/2, 0, 0) /\
  true_length (hex1 a) (hex2 a) (0, 0, 1) (1/2, 0, 0) (1/3, 1/3, 0) < path_length (hex1 a) (hex2 a) (0, 0, 1) (1/2, 0, 0) (1/3, 1/3, 0).
Proof.
  intros H. destruct (hex_forms a H) as (F1 & F2 & F3 & F4 & F5).
  assert (Q : 0 < 1 / (a * a)) by (apply Rdiv_lt_0_compat; [lra|apply Rmult_lt_0_compat; exact H]).
  split; rewrite path_length_form, true_length_form; apply sqrt_lt_1_alt; split;
    try apply form_code_pos; try apply form_true_pos;
    unfold form_code, form_true; rewrite F1, F2, F3, F4, F5; unfold vsub; cbn [vx vy vz fst snd];
    clear -Q; revert Q; generalize (1 / (a * a)), (norm2 (col3 (hex1 a) (hex2 a) (0, 0, 1))),
    (norm2 (0, 0, 1)), (dot (hex1 a) (0, 0, 1)), (dot (hex2 a) (0, 0, 1)); intros; lra.
Qed.

Definition gm_sampler : sampler := {| kpoints := [("G", (0, 0, 0)); ("M", (1/2, 0, 0))]; kpaths := [["G"; "M"]] |}.
Lemma too_wide : exists s density out b, 0 < density /\
  gen_kpt (hex1 1) (hex2 1) (0, 0, 1) density s = Ok out /\ In b out /\
  IZR (count b) * density < true_length (hex1 1) (hex2 1) (0, 0, 1) (from_at b) (to_at b).
Proof.
  destruct (hex_forms 1 ltac:(lra)) as (F1 & F2 & F3 & F4 & F5).
  assert (L : path_length (hex1 1) (hex2 1) (0, 0, 1) (0, 0, 0) (1/2, 0, 0) = 1 / 2).
  { rewrite path_length_form. unfold form_code. rewrite F4, F5. unfold vsub. cbn [vx vy vz fst snd].
    transitivity (sqrt (1 / 2 * (1 / 2))); [f_equal; lra|apply sqrt_square; lra]. }
  assert (C : ceilZ (path_length (hex1 1) (hex2 1) (0, 0, 1) (0, 0, 0) (1/2, 0, 0) / (1 / 2)) = 1%Z).
  { rewrite L. apply ceilZ_unique. lra. }
  exists gm_sampler, (1 / 2). eexists; eexists. split; [lra|]. split; [reflexivity|]. split; [left; reflexivity|].
  cbn [count from_at to_at]. rewrite C. destruct (hexagonal 1 ltac:(lra)) as [G _]. rewrite L in G. lra.
Qed.

Definition line_sampler : sampler := {| kpoints := [("G", (0, 0, 0)); ("X", (1/2, 0, 0))]; kpaths := [["G"; "X"]] |}.
Lemma line_case : aligned (1, 0, 0) (0, 1, 0) (0, 0, 1) /\
  exists b, gen_kpt (1, 0, 0) (0, 1, 0) (0, 0, 1) (1/5) line_sampler = Ok [b] /\ count b = 3%Z.
Proof.
  split; [apply diagonal_aligned|]. eexists. split; [reflexivity|]. cbn [count].
  apply ceilZ_unique. rewrite path_length_form. unfold form_code, col1, col2, col3. vec_unfold.
  match goal with |- _ < sqrt ?x / _ <= _ => replace x with (1/2 * (1/2)) by lra end.
  rewrite sqrt_square by lra. lra.
Qed.
