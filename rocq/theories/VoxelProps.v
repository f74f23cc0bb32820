(** Properties C57, C62: the voxels of the CPU neighbour list. *)
From Verif Require Import VoxelModel VoxelSpec VoxelProofs.
Open Scope R_scope.

(** ** C57 *)

(** The lower-bound search over positions lower..upper-1 of a voxel sorted by x returns the
    first position whose coordinate is at least x (upper when there is none), after at most
    upper - lower iterations and without leaving the voxel. *)
Theorem C57_lower_bound :
  forall bin x, by_x bin -> forall iterations lower upper, (lower <= upper)%nat -> (upper <= length bin)%nat -> (upper - lower <= iterations)%nat ->
  exists k, lower_loop iterations bin x lower upper = Some (Ok k) /\ first_where (fun y => x <= y) bin lower upper k.
Proof. exact lower_ok. Qed.
Print Assumptions C57_lower_bound.

(** The upper-bound search returns the first position whose coordinate is above x. *)
Theorem C57_upper_bound :
  forall bin x, by_x bin -> forall iterations lower upper, (lower <= upper)%nat -> (upper <= length bin)%nat -> (upper - lower <= iterations)%nat ->
  exists k, upper_loop iterations bin x lower upper = Some (Ok k) /\ first_where (fun y => x < y) bin lower upper k.
Proof. exact upper_ok. Qed.
Print Assumptions C57_upper_bound.

Example C57_case : by_x [(1, 4%nat); (2, 0%nat); (2, 3%nat); (5, 1%nat)] /\
  lower_loop 4 [(1, 4%nat); (2, 0%nat); (2, 3%nat); (5, 1%nat)] 2 0 4 = Some (Ok 1%nat) /\
  upper_loop 4 [(1, 4%nat); (2, 0%nat); (2, 3%nat); (5, 1%nat)] 2 0 4 = Some (Ok 3%nat).
Proof. exact ex_search. Qed.

(** On an empty or reversed range the voxel is not looked at. *)
Theorem C57_empty_range :
  forall iterations bin x lower upper, (upper <= lower)%nat ->
  lower_loop iterations bin x lower upper = Some (Ok lower) /\ upper_loop iterations bin x lower upper = Some (Ok upper).
Proof. intros. exact (conj (lower_empty iterations bin x lower upper H) (upper_empty iterations bin x lower upper H)). Qed.
Print Assumptions C57_empty_range.

(** Together: after inserting all atoms and sorting, the part of voxel (y, z) between the two
    searches for lo and hi holds exactly the atoms of that voxel with lo <= x <= hi, each once. *)
Theorem C57_range_query :
  forall std_sort vsy vsz a b c positions, sorts std_sort -> let v := voxels_new vsy vsz a b c in (1 <= v_ny v)%Z -> (1 <= v_nz v)%Z ->
  exists v', insert_all v positions = Ok v' /\
  forall y z, (0 <= y < v_ny v)%Z -> (0 <= z < v_nz v)%Z -> exists bin, cell (v_bins (sort_items std_sort v')) y z = Some bin /\
  forall lo hi, exists k1 k2,
    lower_loop (length bin) bin lo 0 (length bin) = Some (Ok k1) /\ upper_loop (length bin) bin hi 0 (length bin) = Some (Ok k2) /\
    NoDup (map snd (slice k1 k2 bin)) /\
    forall x atom, In (x, atom) (slice k1 k2 bin) <->
      exists p, nth_error positions atom = Some p /\ x = vx p /\ voxel_index v p = (y, z) /\ lo <= vx p <= hi.
Proof. exact range_query. Qed.
Print Assumptions C57_range_query.

(** A sorting function of the required kind, and a box of 2 x 2 voxels. *)
Example C57_sort_case : sorts isort.
Proof. exact isort_sorts. Qed.
Example C57_box_case : v_ny ex_vox = 2%Z /\ v_nz ex_vox = 2%Z.
Proof. exact ex_vox_counts. Qed.

(** ** C62 *)

(** Every position, inside the box or not, gets a voxel inside the table. *)
Theorem C62_in_table :
  forall vsy vsz a b c p, let v := voxels_new vsy vsz a b c in (1 <= v_ny v)%Z -> (1 <= v_nz v)%Z ->
  (0 <= fst (voxel_index v p) < v_ny v)%Z /\ (0 <= snd (voxel_index v p) < v_nz v)%Z.
Proof. exact index_always. Qed.
Print Assumptions C62_in_table.

(** Periodic images share the voxel, when the box vectors are in lower triangular form. *)
Theorem C62_images :
  forall v p i j k, lower_triangular (v_a v) (v_b v) (v_c v) -> 0 < vy (v_b v) -> 0 < vz (v_c v) ->
  voxel_index v (vadd p (comb (v_a v) (v_b v) (v_c v) (IZR i) (IZR j) (IZR k))) = voxel_index v p.
Proof. exact index_periodic. Qed.
Print Assumptions C62_images.

Example C62_images_case : lower_triangular (v_a ex_vox) (v_b ex_vox) (v_c ex_vox) /\ 0 < vy (v_b ex_vox) /\ 0 < vz (v_c ex_vox).
Proof. exact ex_vox_box. Qed.

(** Without that form images can be separated. *)
Theorem C62_images_refuted :
  exists v p i j k, (1 <= v_ny v)%Z /\ (1 <= v_nz v)%Z /\ 0 < vy (v_b v) /\ 0 < vz (v_c v) /\
  voxel_index v (vadd p (comb (v_a v) (v_b v) (v_c v) (IZR i) (IZR j) (IZR k))) <> voxel_index v p.
Proof. exact images_split. Qed.
Print Assumptions C62_images_refuted.

(** The numbers of voxels are the box heights over the requested widths, rounded to the nearest
    integer (halves up). *)
Theorem C62_counts :
  forall vsy vsz a b c, let v := voxels_new vsy vsz a b c in
  IZR (v_ny v) - 1 / 2 <= vy b / vsy < IZR (v_ny v) + 1 / 2 /\ IZR (v_nz v) - 1 / 2 <= vz c / vsz < IZR (v_nz v) + 1 / 2.
Proof. exact voxel_counts. Qed.
Print Assumptions C62_counts.

(** Which voxel: along z the slab of the requested width, along y a slab of width (box height along
    z over the number of voxels along z); what lies beyond the last slab goes into the last. *)
Theorem C62_slab :
  forall vsy vsz a b c p, let v := voxels_new vsy vsz a b c in (1 <= v_ny v)%Z -> (1 <= v_nz v)%Z -> 0 < vz c -> 0 < vsz ->
  forall y z, folded v p = (y, z) -> forall iy iz, voxel_index v p = (iy, iz) ->
  (0 <= z < vsz * IZR (v_nz v) -> IZR iz * vsz <= z < (IZR iz + 1) * vsz) /\ (vsz * IZR (v_nz v) <= z -> iz = (v_nz v - 1)%Z) /\
  (0 <= y < vz c / IZR (v_nz v) * IZR (v_ny v) -> IZR iy * (vz c / IZR (v_nz v)) <= y < (IZR iy + 1) * (vz c / IZR (v_nz v))) /\
  (vz c / IZR (v_nz v) * IZR (v_ny v) <= y -> iy = (v_ny v - 1)%Z).
Proof. exact voxel_slab. Qed.
Print Assumptions C62_slab.

(** The second voxel width is written over the first: an atom is put into the first row of
    voxels whenever its height in the box is below the width meant for the third axis. *)
Theorem C62_first_row :
  forall vsy vsz a b c p, let v := voxels_new vsy vsz a b c in (1 <= v_ny v)%Z -> (1 <= v_nz v)%Z -> 0 < vz c ->
  0 <= fst (folded v p) < vz c / IZR (v_nz v) -> fst (voxel_index v p) = 0%Z.
Proof. exact wrong_row. Qed.
Print Assumptions C62_first_row.

(** So the row is not the one obtained by cutting the box into equal slabs. *)
Theorem C62_slabs_refuted :
  exists v p, v_ny v = 2%Z /\ v_nz v = 2%Z /\ vy (v_b v) = 10 /\ 0 <= vy p < 10 /\
  fst (voxel_index v p) = 0%Z /\ floorZ (vy p / (vy (v_b v) / IZR (v_ny v))) = 1%Z.
Proof. exact slabs_wrong. Qed.
Print Assumptions C62_slabs_refuted.

(** A requested width of more than twice the box gives no voxels at all, and every insertion
    then writes outside the table. *)
Theorem C62_too_wide :
  forall vsy vsz a b c atom p, 0 < vy b -> 2 * vy b < vsy -> voxel_insert (voxels_new vsy vsz a b c) atom p = Err IndexError.
Proof. exact too_wide. Qed.
Print Assumptions C62_too_wide.

Example C62_too_wide_case : voxel_insert (voxels_new 30 5 (10, 0, 0) (0, 10, 0) (0, 0, 10)) 0 (1, 1, 1) = Err IndexError.
Proof. exact ex_too_wide. Qed.
