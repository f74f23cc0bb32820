(** k-point paths, automatic meshes and vacuum detection: C32, C33, C66.
    The definitions are in [KptModel] (code) and [KptSpec] (vocabulary). *)
From Verif Require Import Text Vec KptModel KptSpec KptProofs KptMesh KptCases.
Open Scope nat_scope.
Open Scope list_scope.

(** ** C32 *)

(** One distance per k-point, starting at 0; from each point to the next the distance grows by the
    length of the reciprocal vector between them, except at a jump (two neighbouring labelled
    lines), where it stays the same: the segments are joined end to end. *)
Theorem C32_steps :
  forall float_of b1 b2 b3 lines fs, lines <> [] -> Forall2 (reads_coord float_of) lines fs ->
  exists out, get_distance_from_gamma_A float_of b1 b2 b3 lines = Ok out /\ List.length out = List.length lines /\ hd_error out = Some 0%R /\
  takes_steps out (fun j d => (jump_at lines j -> d = 0%R) /\ (~ jump_at lines j -> forall f g, nth_error fs j = Some f -> nth_error fs (S j) = Some g -> d = kdist b1 b2 b3 f g)).
Proof. exact path_ok. Qed.
Print Assumptions C32_steps.

(** Whatever is returned starts at 0 and never decreases. *)
Theorem C32_monotone :
  forall float_of b1 b2 b3 lines out, get_distance_from_gamma_A float_of b1 b2 b3 lines = Ok out ->
  non_decreasing out /\ hd_error out = Some 0%R /\ List.length out = List.length lines.
Proof. exact path_monotone. Qed.
Print Assumptions C32_monotone.

(** A file without k-points, or with a line that does not start with three numbers (such as a
    trailing empty line), is rejected. *)
Theorem C32_rejected :
  forall float_of b1 b2 b3 lines, (forall t e, float_of t = Err e -> e = ValueError) ->
  (lines = [] \/ exists line, In line lines /\ forall f, ~ reads_coord float_of line f) ->
  get_distance_from_gamma_A float_of b1 b2 b3 lines = Err ValueError.
Proof. exact path_fails_value. Qed.
Print Assumptions C32_rejected.

(** The Bohr variant is the same list times one factor. *)
Theorem C32_bohr :
  forall float_of b1 b2 b3 lines out, get_distance_from_gamma_A float_of b1 b2 b3 lines = Ok out ->
  get_distance_from_gamma_bohr float_of b1 b2 b3 lines = Ok (map (Rmult (529177249 / 10 ^ 9)) out).
Proof. exact path_bohr. Qed.
Print Assumptions C32_bohr.

(** A path segment without a point between its labelled ends is taken for a jump: its length is
    lost. *)
Theorem C32_short_segment_refuted :
  exists lines f g, Forall2 (reads_coord few) lines [f; g] /\ kdist ex ey ez f g = 1%R /\ get_distance_from_gamma_A few ex ey ez lines = Ok [0; 0]%R.
Proof. exact short_segment. Qed.
Print Assumptions C32_short_segment_refuted.

Example C32_case : Forall2 (reads_coord few) path_lines path_points /\ jump_at path_lines 2 /\ ~ jump_at path_lines 0 /\ kdist ex ey ez (0, 0, 0)%R (1 / 2, 0, 0)%R = (1 / 2)%R.
Proof. exact path_case. Qed.

(** ** C33 *)

(** Along a direction flagged as vacuum the count is 1; along the others it is the integer nearest
    to the reciprocal length divided by 2 pi times the density (halves to even), or 1 if that
    is 0. *)
Theorem C33_mesh :
  forall A B C b1 b2 b3 cart density f0 f1 f2, (density <> 0)%R -> judge_vacuum_exist A B C cart = Ok (f0, f1, f2) ->
  exists k0 k1 k2, get_kmesh A B C b1 b2 b3 cart density = Ok (k0, k1, k2) /\
  (f0 = true -> k0 = 1%Z) /\ (f0 = false -> mesh_count (vlen b1 / (density * (2 * PI))) k0) /\
  (f1 = true -> k1 = 1%Z) /\ (f1 = false -> mesh_count (vlen b2 / (density * (2 * PI))) k1) /\
  (f2 = true -> k2 = 1%Z) /\ (f2 = false -> mesh_count (vlen b3 / (density * (2 * PI))) k2).
Proof. exact mesh_spec. Qed.
Print Assumptions C33_mesh.

(** Every count is at least 1 when the density is not negative. *)
Theorem C33_positive :
  forall A B C b1 b2 b3 cart density k0 k1 k2, (0 <= density)%R -> get_kmesh A B C b1 b2 b3 cart density = Ok (k0, k1, k2) -> (1 <= k0 /\ 1 <= k1 /\ 1 <= k2)%Z.
Proof. exact mesh_pos. Qed.
Print Assumptions C33_positive.

(** The counts get no larger when the density grows. *)
Theorem C33_falling :
  forall A B C b1 b2 b3 cart d1 d2 k0 k1 k2 m0 m1 m2, (0 < d1 <= d2)%R ->
  get_kmesh A B C b1 b2 b3 cart d1 = Ok (k0, k1, k2) -> get_kmesh A B C b1 b2 b3 cart d2 = Ok (m0, m1, m2) ->
  (m0 <= k0 /\ m1 <= k1 /\ m2 <= k2)%Z.
Proof. exact mesh_anti. Qed.
Print Assumptions C33_falling.

(** So "density" is a spacing: a larger density can give a coarser mesh. *)
Theorem C33_growing_refuted :
  exists A B C b1 b2 b3 cart d1 d2 k m, (0 < d1 < d2)%R /\ get_kmesh A B C b1 b2 b3 cart d1 = Ok (k, k, k) /\ get_kmesh A B C b1 b2 b3 cart d2 = Ok (m, m, m) /\ (m < k)%Z.
Proof. exact growing_refuted. Qed.
Print Assumptions C33_growing_refuted.

(** The count agrees with the requested spacing to half a point. *)
Theorem C33_spacing :
  forall A B C b1 b2 b3 cart density k0 k1 k2 f0 f1 f2, (0 < density)%R -> judge_vacuum_exist A B C cart = Ok (f0, f1, f2) ->
  get_kmesh A B C b1 b2 b3 cart density = Ok (k0, k1, k2) ->
  let good b k := (vlen b / (2 * PI) <= density * (IZR k + 1 / 2))%R /\ ((1 < k)%Z -> (density * (IZR k - 1 / 2) <= vlen b / (2 * PI))%R) in
  (f0 = false -> good b1 k0) /\ (f1 = false -> good b2 k1) /\ (f2 = false -> good b3 k2).
Proof. exact mesh_spacing. Qed.
Print Assumptions C33_spacing.

(** Density 0 gives one point in each direction, although the counts exceed every number as the
    density goes to 0. *)
Theorem C33_zero :
  forall A B C b1 b2 b3 cart, get_kmesh A B C b1 b2 b3 cart 0 = Ok (1, 1, 1)%Z.
Proof. exact mesh_zero. Qed.
Print Assumptions C33_zero.

Theorem C33_unbounded :
  forall A B C b1 b2 b3 cart f1 f2 N, judge_vacuum_exist A B C cart = Ok (false, f1, f2) -> (0 < vlen b1)%R ->
  exists d0, (0 < d0)%R /\ forall d, (0 < d <= d0)%R -> exists k0 k1 k2, get_kmesh A B C b1 b2 b3 cart d = Ok (k0, k1, k2) /\ (N <= k0)%Z.
Proof. exact mesh_unbounded. Qed.
Print Assumptions C33_unbounded.

(** A negative density is accepted and gives negative counts. *)
Theorem C33_negative_refuted :
  forall A B C b1 b2 b3 cart density f1 f2, (density < 0)%R -> judge_vacuum_exist A B C cart = Ok (false, f1, f2) -> (vlen b1 / (2 * PI) > - density / 2)%R ->
  exists k0 k1 k2, get_kmesh A B C b1 b2 b3 cart density = Ok (k0, k1, k2) /\ (k0 < 0)%Z.
Proof. exact mesh_negative. Qed.
Print Assumptions C33_negative_refuted.

(** A [KMesh] cannot be built from any file of any format: its constructor passes a keyword that
    reading a structure does not take.  The path object's call, which passes two keywords, reads the
    file. *)
Theorem C33_object_refuted : forall Structure (read_pwmat read_other : string -> result Structure) format path,
  kmesh_construct Structure read_pwmat read_other format path = Err TypeError /\
  inkpt_structure Structure read_pwmat read_other path = read_pwmat path.
Proof. exact kmesh_never. Qed.
Print Assumptions C33_object_refuted.

Example C33_case : judge_vacuum_exist ex ey ez [(0, 0, 0)%R] = Ok (false, false, false) /\
  get_kmesh ex ey ez (recip 0) (recip 1) (recip 2) [(0, 0, 0)%R] (/ IZR 4) = Ok (4, 4, 4)%Z /\
  get_kmesh ex ey ez (recip 0) (recip 1) (recip 2) [(0, 0, 0)%R] (/ IZR (-4)) = Ok (-4, -4, -4)%Z.
Proof. exact mesh_case. Qed.

(** ** C66 *)

(** A direction is flagged exactly when its lattice vector is more than 10 longer than the extent
    of the atoms' Cartesian coordinates with the same number. *)
Theorem C66_flags :
  forall A B C cart, cart <> [] -> exists e0 e1 e2 f0 f1 f2, extent (map vx cart) e0 /\ extent (map vy cart) e1 /\ extent (map vz cart) e2 /\
  judge_vacuum_exist A B C cart = Ok (f0, f1, f2) /\ (f0 = true <-> (vlen A - e0 > 10)%R) /\ (f1 = true <-> (vlen B - e1 > 10)%R) /\ (f2 = true <-> (vlen C - e2 > 10)%R).
Proof. exact vacuum_all. Qed.
Print Assumptions C66_flags.

(** In a cell with its vectors along x, y and z, a flag means that the infinite crystal has an empty
    slab wider than 10 across that direction. *)
Theorem C66_slab :
  forall A B C cart f0 f1 f2, judge_vacuum_exist A B C cart = Ok (f0, f1, f2) -> (0 < vx A)%R -> (0 < vy B)%R -> (0 < vz C)%R ->
  A = (vx A, 0, 0)%R -> B = (0, vy B, 0)%R -> C = (0, 0, vz C)%R ->
  (f0 = true -> empty_slab_along vx 10 A B C cart) /\ (f1 = true -> empty_slab_along vy 10 A B C cart) /\ (f2 = true -> empty_slab_along vz 10 A B C cart).
Proof. exact vacuum_slabs. Qed.
Print Assumptions C66_slab.

(** The converse fails: vacuum in the middle of the cell is not flagged. *)
Theorem C66_middle_missed_refuted :
  exists A B C cart, A = (20, 0, 0)%R /\ B = (0, 5, 0)%R /\ C = (0, 0, 5)%R /\ empty_slab_along vx 10 A B C cart /\ judge_vacuum_exist A B C cart = Ok (false, false, false).
Proof. exact middle_missed. Qed.
Print Assumptions C66_middle_missed_refuted.

(** In another orientation a crystal without any empty slab can be flagged. *)
Theorem C66_false_flag_refuted :
  exists A B C cart, det A B C <> 0%R /\ judge_vacuum_exist A B C cart = Ok (true, false, false) /\
  ~ empty_slab_along vx 10 A B C cart /\ ~ empty_slab_along vy 10 A B C cart /\ ~ empty_slab_along vz 10 A B C cart.
Proof. exact false_flag. Qed.
Print Assumptions C66_false_flag_refuted.

(** Without atoms the test raises. *)
Theorem C66_no_atoms : forall A B C, judge_vacuum_exist A B C [] = Err ValueError.
Proof. exact vacuum_no_atoms. Qed.
Print Assumptions C66_no_atoms.

Example C66_case : judge_vacuum_exist (3, 0, 0)%R (0, 3, 0)%R (0, 0, 20)%R [(0, 0, 0)%R; (1, 1, 2)%R] = Ok (false, false, true).
Proof. exact slab_case. Qed.
