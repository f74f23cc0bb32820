(** The path in reciprocal space: C79, C80. *)
From Coq Require Import String Reals Lra Lia.
From Verif Require Import Base Vec NbModel NbSearchProofs KpathModel KpathSpec KpathProofs KpathCases.
Local Open Scope string_scope.
Local Open Scope list_scope.
Local Open Scope R_scope.

(** ** C79 *)

(** The file of special points lists every point of the symmetry table under its published
    name with its own coordinates, once; for a two-dimensional material those at height
    zero and no others. *)
Theorem C79_points : forall k d paths s, symmetry_table d -> kpath_sampler k d paths = Ok s ->
  NoDup (map snd (highk s)) /\ (forall m v, In (v, m) (highk s) <-> offered k d m v).
Proof. exact highk_spec. Qed.
Print Assumptions C79_points.

(** The paths: in three dimensions the given ones; in two, the given ones without the points
    off the plane, and of those the ones that still have two points. *)
Theorem C79_paths : forall k d paths s, symmetry_table d -> kpath_sampler k d paths = Ok s ->
  exists named, Forall2 (Forall2 published) paths named /\
  ((k = 3%Z /\ kpaths s = named) \/
   (k = 2%Z /\ exists flat, Forall2 (selects (fun m => exists v, offered k d m v)) named flat /\
      selects (fun p => (2 <= length p)%nat) flat (kpaths s))).
Proof. exact sampler_paths. Qed.
Print Assumptions C79_paths.

(** The path file: one block for each pair of neighbours of each path, in order, with the
    names of both ends and the coordinates that belong to them. *)
Theorem C79_blocks : forall k d paths s b1 b2 b3 density out, symmetry_table d ->
  kpath_sampler k d paths = Ok s -> gen_kpt b1 b2 b3 density s = Ok out ->
  exists parts, out = List.concat parts /\
  Forall2 (fun path part => length part = (length path - 1)%nat /\
    forall i b, nth_error part i = Some b ->
      nth_error path i = Some (from_name b) /\ nth_error path (S i) = Some (to_name b) /\
      offered k d (from_name b) (from_at b) /\ offered k d (to_name b) (to_at b)) (kpaths s) parts.
Proof. exact gen_kpt_spec. Qed.
Print Assumptions C79_blocks.

(** It can always be written: in two dimensions for any paths at all, in three when the paths
    only name points of the table. *)
Theorem C79_total : forall k d paths b1 b2 b3 density, symmetry_table d ->
  (k = 2%Z /\ paths <> []) \/ (k = 3%Z /\ forall p n, In p paths -> In n p -> In n (map fst d)) ->
  exists s out, kpath_sampler k d paths = Ok s /\ gen_kpt b1 b2 b3 density s = Ok out.
Proof. exact written. Qed.
Print Assumptions C79_total.

(** What is refused: another dimension; a two-dimensional material without paths; a
    three-dimensional path through an unknown point. *)
Theorem C79_rejected :
  (forall k d paths, k <> 2%Z -> k <> 3%Z -> kpath_sampler k d paths = Err PlainException) /\
  (forall d, kpath_sampler 2 d [] = Err NameError) /\
  (forall d paths s b1 b2 b3 density p n, symmetry_table d -> kpath_sampler 3 d paths = Ok s ->
     In p paths -> In n p -> ~ In n (map fst d) -> n <> "G" -> gen_kpt b1 b2 b3 density s = Err KeyError).
Proof. exact (conj sampler_dimension (conj sampler_no_path gen_kpt_missing)). Qed.
Print Assumptions C79_rejected.

(** Neighbours on a two-dimensional path were on the same given path with nothing between
    them but points off the plane... *)
Theorem C79_neighbours : forall d paths s q x y, symmetry_table d -> kpath_sampler 2 d paths = Ok s ->
  In q (kpaths s) -> follows x y q ->
  exists p named l1 gap l2, In p paths /\ Forall2 published p named /\ named = l1 ++ x :: gap ++ y :: l2 /\
    Forall (fun m => ~ exists v, offered 2 d m v) gap.
Proof. exact neighbours. Qed.
Print Assumptions C79_neighbours.

(** ... and there may be such points: the file then has a straight line that belongs to no
    given path. *)
Theorem C79_shortcut_refuted : exists d paths s q x y, symmetry_table d /\
  (forall p n, In p paths -> In n p -> In n (map fst d)) /\
  kpath_sampler 2 d paths = Ok s /\ In q (kpaths s) /\ follows x y q /\
  forall p named, In p paths -> Forall2 published p named -> ~ follows x y named.
Proof. exact shortcut. Qed.
Print Assumptions C79_shortcut_refuted.

Example C79_case : symmetry_table hex_points /\ exists s, kpath_sampler 2 hex_points hex_paths = Ok s /\
  kpaths s = [["G"; "M"; "K"; "G"]] /\ highk s = [((1/3, 1/3, 0), "K"); ((1/2, 0, 0), "M"); ((0, 0, 0), "G")].
Proof. exact hex_case. Qed.

(** ** C80 *)

(** When the reciprocal lattice vectors are orthogonal and aligned with the axes, the number
    of points of a block is the smallest whose spacing does not exceed the density asked
    for. *)
Theorem C80_spacing : forall b1 b2 b3 density s out b, aligned b1 b2 b3 -> 0 < density ->
  gen_kpt b1 b2 b3 density s = Ok out -> In b out ->
  (0 <= count b)%Z /\ true_length b1 b2 b3 (from_at b) (to_at b) <= IZR (count b) * density /\
  (forall n : Z, true_length b1 b2 b3 (from_at b) (to_at b) <= IZR n * density -> (count b <= n)%Z).
Proof. exact spacing_ok. Qed.
Print Assumptions C80_spacing.

(** Boxes along the axes are such lattices. *)
Theorem C80_boxes : forall x y z, aligned (x, 0, 0) (0, y, 0) (0, 0, z).
Proof. exact diagonal_aligned. Qed.
Print Assumptions C80_boxes.

(** These are exactly the lattices whose lengths come out right. *)
Theorem C80_exactly_aligned : forall b1 b2 b3,
  (forall u v, path_length b1 b2 b3 u v = true_length b1 b2 b3 u v) <-> aligned b1 b2 b3.
Proof. exact length_iff. Qed.
Print Assumptions C80_exactly_aligned.

(** For a hexagonal cell of any edge the line from the centre to M is taken to be shorter than
    it is and the line from M to K longer. *)
Theorem C80_hexagonal : forall a, 0 < a ->
  path_length (hex1 a) (hex2 a) (0, 0, 1) (0, 0, 0) (1/2, 0, 0) < true_length (hex1 a) (hex2 a) (0, 0, 1) (0, 0, 0) (1/2, 0, 0) /\
  true_length (hex1 a) (hex2 a) (0, 0, 1) (1/2, 0, 0) (1/3, 1/3, 0) < path_length (hex1 a) (hex2 a) (0, 0, 1) (1/2, 0, 0) (1/3, 1/3, 0).
Proof. exact hexagonal. Qed.
Print Assumptions C80_hexagonal.

(** So a file can have a spacing wider than the one asked for. *)
Theorem C80_spacing_refuted : exists s density out b, 0 < density /\
  gen_kpt (hex1 1) (hex2 1) (0, 0, 1) density s = Ok out /\ In b out /\
  IZR (count b) * density < true_length (hex1 1) (hex2 1) (0, 0, 1) (from_at b) (to_at b).
Proof. exact too_wide. Qed.
Print Assumptions C80_spacing_refuted.

Example C80_case : aligned (1, 0, 0) (0, 1, 0) (0, 0, 1) /\
  exists b, gen_kpt (1, 0, 0) (0, 1, 0) (0, 0, 1) (1/5) line_sampler = Ok [b] /\ count b = 3%Z.
Proof. exact line_case. Qed.
