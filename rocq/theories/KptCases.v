From Verif Require Import Text TextProofs Vec KptModel KptSpec KptProofs KptMesh.
Local Open Scope nat_scope.
Local Open Scope list_scope.
Local Open Scope string_scope.

(** A parser for a few numbers. *)
Definition few (s : string) : result R :=
  if String.eqb s "0.0" then Ok 0%R else if String.eqb s "0.5" then Ok (1 / 2)%R else if String.eqb s "1.0" then Ok 1%R else Err ValueError.
Definition ex : vec := (1, 0, 0)%R.
Definition ey : vec := (0, 1, 0)%R.
Definition ez : vec := (0, 0, 1)%R.

Definition path_lines : list string := ["0.0 0.0 0.0 1 G"; "0.5 0.0 0.0 1"; "1.0 0.0 0.0 1 X"; "0.0 1.0 0.0 1 Y"; "0.0 0.5 0.0 1"; "0.0 0.0 0.0 1 G"].
Definition path_points : list vec := [(0, 0, 0); (1 / 2, 0, 0); (1, 0, 0); (0, 1, 0); (0, 1 / 2, 0); (0, 0, 0)]%R.

Ltac reads := do 4 eexists; split; [vm_compute; reflexivity|split; [reflexivity|split; reflexivity]].

Lemma path_reads : Forall2 (reads_coord few) path_lines path_points.
Proof. unfold path_lines, path_points. repeat (constructor; [reads|]). constructor. Qed.
Lemma len1 L v : (0 <= L)%R -> norm2 v = (L * L)%R -> vlen v = L.
Proof. intros H E. unfold vlen. rewrite E. fold (Rsqr L). apply sqrt_Rsqr. exact H. Qed.
Lemma path_jumps : jump_at path_lines 2 /\ ~ jump_at path_lines 0 /\ ~ jump_at path_lines 4.
Proof.
  split; [do 2 eexists; repeat split; vm_compute; reflexivity|]. split; intros (l1 & l2 & E1 & E2 & L1 & L2); cbn in E1, E2; injection E1 as <-; injection E2 as <-; vm_compute in L1, L2; discriminate.
Qed.
Lemma path_case : Forall2 (reads_coord few) path_lines path_points /\ jump_at path_lines 2 /\ ~ jump_at path_lines 0 /\ kdist ex ey ez (0, 0, 0)%R (1 / 2, 0, 0)%R = (1 / 2)%R.
Proof.
  split; [exact path_reads|]. destruct path_jumps as (J2 & J0 & _). split; [exact J2|]. split; [exact J0|]. unfold kdist. apply len1; [lra|]. unfold ex, ey, ez. vec_unfold. field.
Qed.

Lemma short_segment : exists lines f g, Forall2 (reads_coord few) lines [f; g] /\ kdist ex ey ez f g = 1%R /\ get_distance_from_gamma_A few ex ey ez lines = Ok [0; 0]%R.
Proof.
  exists ["0.0 0.0 0.0 1 G"; "1.0 0.0 0.0 1 X"], (0, 0, 0)%R, (1, 0, 0)%R. assert (Hr : Forall2 (reads_coord few) ["0.0 0.0 0.0 1 G"; "1.0 0.0 0.0 1 X"] [(0, 0, 0)%R; (1, 0, 0)%R]) by (repeat (constructor; [reads|]); constructor).
  split; [exact Hr|]. split; [unfold kdist; apply len1; [lra|]; unfold ex, ey, ez; vec_unfold; field|].
  destruct (path_ok few ex ey ez ["0.0 0.0 0.0 1 G"; "1.0 0.0 0.0 1 X"] _ ltac:(discriminate) Hr) as (out & E & L & H0 & St). rewrite E. destruct out as [|x [|y [|z out]]]; try discriminate L. cbn in H0. injection H0 as ->.
  destruct (St 0 0%R y eq_refl eq_refl) as [Sj _]. rewrite <- (Rminus_0_r y), Sj; [reflexivity|]. do 2 eexists. repeat split; vm_compute; reflexivity.
Qed.

(** ** Vacuum and mesh *)
Ltac flag := unfold vacuum_axis, rmax, rmin; cbn [map fold_left vx vy vz fst snd]; unfold Rmax, Rmin; repeat (destruct (Rle_dec _ _); try (exfalso; lra)); destruct (Rlt_dec _ _); try (exfalso; lra); reflexivity.

(** A slab in the middle of the cell. *)
Lemma middle_missed : exists A B C cart, A = (20, 0, 0)%R /\ B = (0, 5, 0)%R /\ C = (0, 0, 5)%R /\ empty_slab_along vx 10 A B C cart /\ judge_vacuum_exist A B C cart = Ok (false, false, false).
Proof.
  exists (20, 0, 0)%R, (0, 5, 0)%R, (0, 0, 5)%R, [(1 / 2, 0, 0)%R; (39 / 2, 0, 0)%R]. do 3 (split; [reflexivity|]). split.
  - exists (1 / 2)%R, (39 / 2)%R. split; [lra|]. intros p (q & i & j & k & Iq & ->) [H1 H2]. assert (Ex : vx (vadd q (comb (20, 0, 0) (0, 5, 0) (0, 0, 5) (IZR i) (IZR j) (IZR k)))%R = (vx q + IZR i * 20)%R) by (destruct q as [[? ?] ?]; vec_unfold; ring).
    rewrite Ex in H1, H2. assert (Hq : (vx q = 1 / 2 \/ vx q = 39 / 2)%R) by (destruct Iq as [<-|[<-|[]]]; [left|right]; reflexivity).
    destruct (Z_le_gt_dec i 0) as [Hi|Hi].
    + assert (IZR i <= 0)%R by (apply IZR_le; exact Hi). destruct (Z_le_gt_dec i (-1)) as [Hj|Hj]; [assert (IZR i <= -1)%R by (apply IZR_le; exact Hj); lra|]. replace i with 0%Z in * by lia. lra.
    + assert (1 <= IZR i)%R by (apply IZR_le; lia). lra.
  - unfold judge_vacuum_exist. fold (vlen (20, 0, 0)%R) (vlen (0, 5, 0)%R) (vlen (0, 0, 5)%R).
    rewrite (len1 20), (len1 5 (0, 5, 0)%R), (len1 5 (0, 0, 5)%R) by (try lra; vec_unfold; ring).
    replace (vacuum_axis 20 _) with (Ok false) by (symmetry; flag). cbn [bind]. replace (vacuum_axis 5 (map vy _)) with (Ok false) by (symmetry; flag). cbn [bind]. replace (vacuum_axis 5 (map vz _)) with (Ok false) by (symmetry; flag). reflexivity.
Qed.

(** A dense crystal whose first lattice vector lies along y. *)
Lemma false_flag : exists A B C cart, det A B C <> 0%R /\ judge_vacuum_exist A B C cart = Ok (true, false, false) /\
  ~ empty_slab_along vx 10 A B C cart /\ ~ empty_slab_along vy 10 A B C cart /\ ~ empty_slab_along vz 10 A B C cart.
Proof.
  set (cart := [(0, 0, 0); (0, 5, 0); (0, 10, 0); (0, 15, 0)]%R). exists (0, 20, 0)%R, (5, 0, 0)%R, (0, 0, 5)%R, cart. split; [vec_unfold; lra|]. split; [|split; [|split]].
  - unfold judge_vacuum_exist. fold (vlen (0, 20, 0)%R) (vlen (5, 0, 0)%R) (vlen (0, 0, 5)%R).
    rewrite (len1 20), (len1 5 (5, 0, 0)%R), (len1 5 (0, 0, 5)%R) by (try lra; vec_unfold; ring). unfold cart.
    replace (vacuum_axis 20 _) with (Ok true) by (symmetry; flag). cbn [bind]. replace (vacuum_axis 5 (map vy _)) with (Ok false) by (symmetry; flag). cbn [bind]. replace (vacuum_axis 5 (map vz _)) with (Ok false) by (symmetry; flag). reflexivity.
  - intros (lo & hi & Hw & H). destruct (archimed (lo / 5)) as [H1 H2]. set (n := up (lo / 5)) in *. apply (H (IZR n * 5, 0, 0)%R); [|cbn; lra].
    exists (0, 0, 0)%R, 0%Z, n, 0%Z. split; [left; reflexivity|]. vec_unfold. f_equal; [f_equal; ring|ring].
  - intros (lo & hi & Hw & H). destruct (archimed (lo / 5)) as [H1 H2]. set (n := up (lo / 5)) in *. apply (H (0, IZR n * 5, 0)%R); [|cbn; lra].
    exists (0, IZR (n mod 4) * 5, 0)%R, (n / 4)%Z, 0%Z, 0%Z. split.
    + assert (M := Z.mod_pos_bound n 4 ltac:(lia)). unfold cart. assert (n mod 4 = 0 \/ n mod 4 = 1 \/ n mod 4 = 2 \/ n mod 4 = 3)%Z as [-> | [-> | [-> | ->]]] by lia; cbn [In]; [left|right; left|right; right; left|right; right; right; left]; f_equal; f_equal; lra.
    + rewrite (Z.div_mod n 4) at 1 by lia. rewrite plus_IZR, mult_IZR. vec_unfold. f_equal; [f_equal; ring|ring].
  - intros (lo & hi & Hw & H). destruct (archimed (lo / 5)) as [H1 H2]. set (n := up (lo / 5)) in *. apply (H (0, 0, IZR n * 5)%R); [|cbn; lra].
    exists (0, 0, 0)%R, 0%Z, 0%Z, n. split; [left; reflexivity|]. vec_unfold. f_equal; [f_equal; ring|ring].
Qed.

(** A cube of side 1 with one atom. *)
Definition recip (i : nat) : vec := match i with 0 => (2 * PI, 0, 0)%R | 1 => (0, 2 * PI, 0)%R | _ => (0, 0, 2 * PI)%R end.
Lemma cube_flags : judge_vacuum_exist ex ey ez [(0, 0, 0)%R] = Ok (false, false, false).
Proof.
  unfold judge_vacuum_exist. fold (vlen ex) (vlen ey) (vlen ez). rewrite (len1 1 ex), (len1 1 ey), (len1 1 ez) by (try lra; unfold ex, ey, ez; vec_unfold; ring).
  replace (vacuum_axis 1 (map vx _)) with (Ok false) by (symmetry; flag). cbn [bind]. replace (vacuum_axis 1 (map vy _)) with (Ok false) by (symmetry; flag). cbn [bind]. replace (vacuum_axis 1 (map vz _)) with (Ok false) by (symmetry; flag). reflexivity.
Qed.
Lemma recip_len i : vlen (recip i) = (2 * PI)%R.
Proof. assert (P := PI_RGT_0). apply len1; [lra|]. destruct i as [|[|i]]; cbn [recip]; vec_unfold; ring. Qed.
Lemma cube_axis n i : n <> 0%Z -> mesh_axis (/ IZR n) (recip i) false = n.
Proof.
  intros Hn. unfold mesh_axis. fold (vlen (recip i)). rewrite recip_len. assert (P := PI_RGT_0). replace (2 * PI / (/ IZR n * 2 * PI))%R with (IZR n) by (assert (IZR n <> 0)%R by (apply IZR_neq; exact Hn); field; repeat split; first [assumption | apply PI_neq0]).
  rewrite round_int. destruct (Z.eqb_spec n 0); [contradiction|reflexivity].
Qed.
Lemma cube_mesh n : n <> 0%Z -> get_kmesh ex ey ez (recip 0) (recip 1) (recip 2) [(0, 0, 0)%R] (/ IZR n) = Ok (n, n, n).
Proof.
  intros Hn. unfold get_kmesh. destruct (Req_EM_T (/ IZR n) 0) as [E|_]; [exfalso; apply (Rinv_neq_0_compat (IZR n)); [apply IZR_neq; exact Hn|exact E]|].
  rewrite cube_flags. cbn [bind fst snd]. rewrite !cube_axis by exact Hn. reflexivity.
Qed.
Lemma growing_refuted : exists A B C b1 b2 b3 cart d1 d2 k m, (0 < d1 < d2)%R /\ get_kmesh A B C b1 b2 b3 cart d1 = Ok (k, k, k) /\ get_kmesh A B C b1 b2 b3 cart d2 = Ok (m, m, m) /\ (m < k)%Z.
Proof.
  exists ex, ey, ez, (recip 0), (recip 1), (recip 2), [(0, 0, 0)%R], (/ IZR 4)%R, (/ IZR 2)%R, 4%Z, 2%Z. split; [lra|]. split; [apply cube_mesh; lia|]. split; [apply cube_mesh; lia|lia].
Qed.
Lemma mesh_case : judge_vacuum_exist ex ey ez [(0, 0, 0)%R] = Ok (false, false, false) /\ get_kmesh ex ey ez (recip 0) (recip 1) (recip 2) [(0, 0, 0)%R] (/ IZR 4) = Ok (4, 4, 4)%Z /\
  get_kmesh ex ey ez (recip 0) (recip 1) (recip 2) [(0, 0, 0)%R] (/ IZR (-4)) = Ok (-4, -4, -4)%Z.
Proof. split; [exact cube_flags|]. split; apply cube_mesh; lia. Qed.
Lemma slab_case : judge_vacuum_exist (3, 0, 0)%R (0, 3, 0)%R (0, 0, 20)%R [(0, 0, 0)%R; (1, 1, 2)%R] = Ok (false, false, true).
Proof.
  unfold judge_vacuum_exist. fold (vlen (3, 0, 0)%R) (vlen (0, 3, 0)%R) (vlen (0, 0, 20)%R). rewrite (len1 3 (3, 0, 0)%R), (len1 3 (0, 3, 0)%R), (len1 20) by (try lra; vec_unfold; ring).
  replace (vacuum_axis 3 (map vx _)) with (Ok false) by (symmetry; flag). cbn [bind]. replace (vacuum_axis 3 (map vy _)) with (Ok false) by (symmetry; flag). cbn [bind]. replace (vacuum_axis 20 (map vz _)) with (Ok true) by (symmetry; flag). reflexivity.
Qed.
