(** Average bonds, displacements, angles and pair distances: C70, C71, C72, C73. *)
From Coq Require Import Permutation.
From Verif Require Import Arr Vec SeModel StructSpec NeighModel NeighSpec NeighReal DataModel DataSpec DataProofs AvgModel AvgSpec AvgBondProofs AvgProofs AvgCases.
Local Open Scope R_scope.

(** ** C70 *)

(** For a structure whose supercell reaches the cutoff, the reported value is the average length of
    all bonds, in the infinite crystal, from sites of the first element to atoms of the second,
    each counted once; these are finitely many, and exchanging the two elements changes nothing. *)
Theorem C70_structure :
  forall (A B C : vec), det A B C <> 0 ->
  forall argsort (sites : list (Z * vec)) rcut s0 s1 s2, sorts Rleb argsort -> positive_odd s0 -> positive_odd s1 -> positive_odd s2 ->
  distinct_sites A B C (map snd sites) -> 0 <= rcut -> Forall (fun s => in_cell A B C (snd s)) sites ->
  reaches rcut s0 A B C -> reaches rcut s1 B C A -> reaches rcut s2 C A B -> sites <> [] ->
  exists table, structure_neighbors_v1 argsort A B C sites rcut s0 s1 s2 true = Ok table /\
  forall a1 a2, (exists keys, all_bonds A B C sites rcut a1 a2 keys) /\
  (forall keys, all_bonds A B C sites rcut a1 a2 keys -> get_avg_bond_length table a1 a2 = Ok (average (map bond_length keys))) /\
  get_avg_bond_length table a1 a2 = get_avg_bond_length table a2 a1.
Proof. exact structure_avg. Qed.
Print Assumptions C70_structure.

(** The average lies above zero and not above the cutoff. *)
Theorem C70_bounds :
  forall A B C sites rcut a1 a2 keys m, all_bonds A B C sites rcut a1 a2 keys -> average (map bond_length keys) = Some m -> 0 < m <= rcut.
Proof. exact bond_avg_bounds. Qed.
Print Assumptions C70_bounds.

(** Any table, whatever made it: the average of the non-zero distances to entries of the second
    element in rows whose centre is of the first. *)
Theorem C70_table :
  forall a1 a2 table, table <> [] -> Forall rectangular table -> get_avg_bond_length table a1 a2 = Ok (average (flat_map (row_bonds a1 a2) table)).
Proof. exact avg_bond_table. Qed.
Print Assumptions C70_table.

Example C70_case : all_bonds axis_a axis_b axis_c two_sites 9 8 1 two_bonds /\ average (map bond_length two_bonds) = Some 5.
Proof. exact (conj two_bonds_all two_average). Qed.
Example C70_case_hypotheses : det axis_a axis_b axis_c = 1000 /\ distinct_sites axis_a axis_b axis_c (map snd two_sites) /\
  Forall (fun s => in_cell axis_a axis_b axis_c (snd s)) two_sites /\
  reaches 9 3 axis_a axis_b axis_c /\ reaches 9 3 axis_b axis_c axis_a /\ reaches 9 3 axis_c axis_a axis_b.
Proof. exact (conj det_cube (conj (separated_distinct _ _ _ _ two_separated) (conj two_in_cell cube_reaches))). Qed.
Example C70_case_none : get_avg_bond_length [([8; 1]%Z, [0; 2], [(0, 0, 0); (2, 0, 0)])] 8 26 = Ok None.
Proof. exact no_bonds. Qed.

(** ** C71 *)

(** One value per step: the mean squared distance the atoms moved since the frame before. *)
Theorem C71_steps :
  forall cpus frames n, (3 <= cpus)%Z -> Forall (fun s => length s = n) frames ->
  exists l, calc_msd cpus frames = Ok l /\ length l = (length frames - 1)%nat /\
  forall k a b, nth_error frames k = Some a -> nth_error frames (S k) = Some b -> nth_error l k = Some (average (squared_moves a b)).
Proof. exact msd_ok. Qed.
Print Assumptions C71_steps.

(** It is never negative, and zero only if no atom moved. *)
Theorem C71_sign :
  forall a b, length a = length b -> a <> [] -> exists m, average (squared_moves a b) = Some m /\ 0 <= m /\ (m = 0 <-> a = b).
Proof. exact msd_sign. Qed.
Print Assumptions C71_sign.

(** The other variant measures every position from the centroid of its frame; *)
Theorem C71_centroid_steps :
  forall cpus frames n, (3 <= cpus)%Z -> n <> 0%nat -> Forall (fun s => length s = n) frames ->
  exists l, calc_msd_sub_centroid cpus frames = Ok l /\ length l = (length frames - 1)%nat /\
  forall k a b ca cb, nth_error frames k = Some a -> nth_error frames (S k) = Some b -> is_centroid a ca -> is_centroid b cb ->
  nth_error l k = Some (average (squared_moves (map (fun p => vsub p ca) a) (map (fun p => vsub p cb) b))).
Proof. exact msd_sub_frames. Qed.
Print Assumptions C71_centroid_steps.

(** it does not see a translation of a frame, *)
Theorem C71_translation :
  forall a b t u, a <> [] -> b <> [] ->
  calc_msd_sub_centroid_s (map (fun p => vadd p t) a) (map (fun p => vadd p u) b) = calc_msd_sub_centroid_s a b.
Proof. exact msd_sub_translation. Qed.
Print Assumptions C71_translation.

(** and is smaller by the squared displacement of the centroid. *)
Theorem C71_relation :
  forall a b ca cb m, length a = length b -> a <> [] -> is_centroid a ca -> is_centroid b cb -> calc_msd_s a b = Ok (Some m) ->
  calc_msd_sub_centroid_s a b = Ok (Some (m - vdist cb ca ^ 2)).
Proof. exact msd_sub_relation. Qed.
Print Assumptions C71_relation.

(** The diffraction intensity of a step is exp(-q²m/3), in (0,1]. *)
Theorem C71_intensity :
  forall cpus frames q l k m, calc_msd cpus frames = Ok l -> nth_error l k = Some (Some m) -> 0 <= m ->
  exists l', calc_di cpus frames q = Ok l' /\ exists d, nth_error l' k = Some (Some d) /\ d = exp (- (q * q * m / 3)) /\ 0 < d <= 1.
Proof. exact di_ok. Qed.
Print Assumptions C71_intensity.

(** The documented displacement from the origin frame is not what is returned after the first step. *)
Theorem C71_origin_refuted :
  exists frames l, calc_msd 4 frames = Ok l /\ nth_error frames 0 = Some [(0, 0, 0)] /\ nth_error frames 2 = Some [(2, 0, 0)] /\
  average (squared_moves [(0, 0, 0)] [(2, 0, 0)]) = Some 4 /\ nth_error l 1 = Some (Some 1).
Proof. exact (ex_intro _ walk (ex_intro _ _ (conj walk_msd (conj eq_refl (conj eq_refl (conj walk_origin eq_refl)))))). Qed.
Print Assumptions C71_origin_refuted.

(** Crossing the boundary of the cell (a cube of edge ten) counts as a jump back. *)
Theorem C71_periodic_refuted :
  (exists i j k : Z, (1, 0, 0) = vadd (11, 0, 0) (comb axis_a axis_b axis_c (IZR i) (IZR j) (IZR k))) /\
  calc_msd_s [(9, 0, 0)] [(1, 0, 0)] = Ok (Some 64) /\ calc_msd_s [(9, 0, 0)] [(11, 0, 0)] = Ok (Some 4).
Proof. exact (conj wrap_image wrap_msd). Qed.
Print Assumptions C71_periodic_refuted.

(** With one or two processors every call fails. *)
Theorem C71_few_processors :
  forall cpus frames q, (cpus <= 2)%Z -> calc_msd cpus frames = Err ValueError /\ calc_msd_sub_centroid cpus frames = Err ValueError /\ calc_di cpus frames q = Err ValueError.
Proof. exact few_cpus. Qed.
Print Assumptions C71_few_processors.

(** Frames with different numbers of atoms fail, unless one of them has a single atom: then a number
    comes out. *)
Theorem C71_mismatch : forall a b, length a <> length b -> length a <> 1%nat -> length b <> 1%nat -> calc_msd_s a b = Err ValueError.
Proof. exact mismatch_msd. Qed.
Print Assumptions C71_mismatch.
Theorem C71_mismatch_refuted : exists m, calc_msd_s [(0, 0, 0)] [(1, 0, 0); (3, 0, 0)] = Ok (Some m) /\ m = 5.
Proof. exact broadcast_msd. Qed.
Print Assumptions C71_mismatch_refuted.

Example C71_case : calc_msd 4 walk = Ok [Some 1; Some 1].
Proof. exact walk_msd. Qed.
Example C71_case_centroid : is_centroid [(0, 0, 0); (2, 0, 0)] (1, 0, 0).
Proof. exact centroid_case. Qed.

(** ** C72 *)

(** Two different neighbour elements: the mean and the order parameter are those of the angles of all
    pairs of neighbours, one of each element, of the same centre; the mean is within 0 and 180. *)
Theorem C72_different :
  forall rc2 rc3 n2 n3, Forall2 real_entries rc2 n2 -> Forall2 real_entries rc3 n3 ->
  (exists angles, Forall2 (fun p a => is_angle (fst p) (snd p) a) (flat_map (fun p => list_prod (fst p) (snd p)) (combine n2 n3)) angles) /\
  forall angles, Forall2 (fun p a => is_angle (fst p) (snd p) a) (flat_map (fun p => list_prod (fst p) (snd p)) (combine n2 n3)) angles ->
  get_avg_angle false rc2 rc3 = (average angles, tetrahedral_order angles) /\ (forall m, average angles = Some m -> 0 <= m <= 180).
Proof. exact cross_claim. Qed.
Print Assumptions C72_different.

(** Equal elements: every neighbour also enters as a pair with itself, at angle zero.  The mean is
    divided by a count that includes these, the order parameter is too low by 2/3 for each. *)
Theorem C72_equal :
  forall rc ns angles, Forall2 real_entries rc ns -> Forall2 (fun p a => is_angle (fst p) (snd p) a) (flat_map unordered ns) angles ->
  let N := length (concat ns) in
  fst (get_avg_angle true rc rc) = match (N + length angles)%nat with 0%nat => None | n => Some (fold_right Rplus 0 angles / INR n) end /\
  snd (get_avg_angle true rc rc) = tetrahedral_order angles - 2 / 3 * INR N.
Proof. exact same_claim. Qed.
Print Assumptions C72_equal.

(** For one centre with n neighbours the mean comes out as (n-1)/(n+1) of the true one. *)
Theorem C72_equal_one_centre :
  forall row l angles m, real_entries row l -> Forall2 (fun p a => is_angle (fst p) (snd p) a) (unordered l) angles -> average angles = Some m ->
  fst (get_avg_angle true [row] [row]) = Some (m * ((INR (length l) - 1) / (INR (length l) + 1))).
Proof. exact same_one_claim. Qed.
Print Assumptions C72_equal_one_centre.

(** Two neighbours on opposite sides: 60 degrees.  A perfect tetrahedron: -5/3 instead of 1. *)
Theorem C72_mean_refuted :
  real_entries line_row [(1, 0, 0); (-1, 0, 0)] /\ is_angle (1, 0, 0) (-1, 0, 0) 180 /\ fst (get_avg_angle true [line_row] [line_row]) = Some 60.
Proof. exact (conj line_entries (conj opposite line_angle)). Qed.
Print Assumptions C72_mean_refuted.
Theorem C72_order_refuted :
  real_entries tetrahedron tetrahedron /\ (forall angles, Forall2 (fun p a => is_angle (fst p) (snd p) a) (unordered tetrahedron) angles -> tetrahedral_order angles = 1) /\
  snd (get_avg_angle true [tetrahedron] [tetrahedron]) = - (5 / 3).
Proof. exact (conj tetra_entries (conj tetra_true (proj2 tetra_order))). Qed.
Print Assumptions C72_order_refuted.

(** The filter by angle keeps exactly the pairs whose angle is within the tolerance, the shorter bond
    first. *)
Theorem C72_filter :
  forall rc2 rc3 n2 n3 standard epsilon a s l, Forall2 real_entries rc2 n2 -> Forall2 real_entries rc3 n3 ->
  (In (a, s, l) (get_bond_lengths_according2angle false rc2 rc3 standard epsilon) <->
   exists u v, In (u, v) (flat_map (fun p => list_prod (fst p) (snd p)) (combine n2 n3)) /\ is_angle u v a /\ Rabs (a - standard) < epsilon /\
     ((s = vnorm u /\ l = vnorm v) \/ (s = vnorm v /\ l = vnorm u)) /\ s <= l).
Proof. exact filter_cross_claim. Qed.
Print Assumptions C72_filter.
Theorem C72_filter_equal :
  forall rc ns standard epsilon, Forall2 real_entries rc ns -> epsilon <= standard ->
  exists kept, Permutation (get_bond_lengths_according2angle true rc rc standard epsilon) kept /\
  forall a s l, In (a, s, l) kept <-> exists u v, In (u, v) (flat_map unordered ns) /\ is_angle u v a /\ Rabs (a - standard) < epsilon /\ s = Rmin (vnorm u) (vnorm v) /\ l = Rmax (vnorm u) (vnorm v).
Proof. exact filter_same_claim. Qed.
Print Assumptions C72_filter_equal.

Example C72_case_different : fst (get_avg_angle false [[(1, 0, 0)]] [[(0, 0, 0); (-1, 0, 0)]]) = Some 180.
Proof. exact line_cross. Qed.

(** ** C73 *)

(** One distance per frame, between the two atoms asked for. *)
Theorem C73_distances :
  forall frames i j, (forall f, In f frames -> (- Z.of_nat (length f) <= i < Z.of_nat (length f))%Z /\ (- Z.of_nat (length f) <= j < Z.of_nat (length f))%Z) ->
  exists l, get_frames_pair_bond frames i j = Ok l /\ length l = length frames /\
  forall k f p q, nth_error frames k = Some f -> refers f i p -> refers f j q -> nth_error l k = Some (vdist q p).
Proof. exact pair_bond_refers. Qed.
Print Assumptions C73_distances.

(** Order of the two atoms. *)
Theorem C73_symmetric :
  forall frames i j l, get_frames_pair_bond frames i j = Ok l -> get_frames_pair_bond frames j i = Ok l.
Proof. exact pair_sym_ok. Qed.
Print Assumptions C73_symmetric.

(** An atom written as a different image of itself gives another distance. *)
Theorem C73_periodic_refuted :
  image_of_site axis_a axis_b axis_c [(1%Z, (9, 0, 0))] (1%Z, (-1, 0, 0)) 0 /\
  get_frames_pair_bond [[(0, 0, 0); (9, 0, 0)]; [(0, 0, 0); (-1, 0, 0)]] 0 1 = Ok [9; 1].
Proof. exact (conj nearby_images pair_wrap). Qed.
Print Assumptions C73_periodic_refuted.

Example C73_case : get_frames_pair_bond [[(0, 0, 0); (9, 0, 0)]; [(0, 0, 0); (-1, 0, 0)]] 0 1 = Ok [9; 1].
Proof. exact pair_wrap. Qed.
