(** Model of the voxel structure: source/nblist/src/CpuNeighborList.cc.
    Real numbers, no rounding.  [float]/[double] conversions are left out. *)
From Verif Require Export Arr Vec NbModel.
Open Scope nat_scope.

(** The members that matter after construction: CpuNeighborList.h:119-130. *)
Record voxels := { v_ny : Z; v_nz : Z; v_sizeY : R; v_sizeZ : R; v_a : vec; v_b : vec; v_c : vec;
                   v_bins : list (list (list (R * nat))) }.

(** CpuNeighborList.cc:21-69, periodic branch.  In the other branch [ny] and [nz] are
    never assigned, which is undefined behaviour; it is not modelled.  Line 60 assigns
    [voxelSizeY] a second time; [voxelSizeZ] keeps the requested size. *)
Definition voxels_new (vsy vsz : R) (a b c : vec) : voxels :=
  let ny := floorZ (vy b / vsy + 1 / 2)%R in
  let nz := floorZ (vz c / vsz + 1 / 2)%R in
  let size1 := (vy b / IZR ny)%R in
  let size2 := (vz c / IZR nz)%R in
  {| v_ny := ny; v_nz := nz; v_sizeY := (fun _ => size2) size1; v_sizeZ := vsz; v_a := a; v_b := b; v_c := c;
     v_bins := repeat (repeat [] (Z.to_nat nz)) (Z.to_nat ny) |}.

(** CpuNeighborList.cc:85-90: the position folded back into the box. *)
Definition folded (v : voxels) (p : vec) : R * R :=
  let shiftZ := IZR (floorZ (vz p * (1 / vz (v_c v)))%R) in
  let z := (vz p - vz (v_c v) * shiftZ)%R in
  let y := (vy p - vy (v_c v) * shiftZ)%R in
  let shiftY := IZR (floorZ (y * (1 / vy (v_b v)))%R) in
  ((y - vy (v_b v) * shiftY)%R, z).

(** CpuNeighborList.cc:78-95, [getVoxelIndex]. *)
Definition voxel_index (v : voxels) (p : vec) : Z * Z :=
  let '(y, z) := folded v p in
  (Z.max 0 (Z.min (v_ny v - 1) (floorZ (y / v_sizeY v)%R)), Z.max 0 (Z.min (v_nz v - 1) (floorZ (z / v_sizeZ v)%R))).

(** CpuNeighborList.cc:104-108, [insert]. *)
Definition voxel_insert (v : voxels) (atom : nat) (p : vec) : result voxels :=
  let '(iy, iz) := voxel_index v p in
  bind (get (v_bins v) (Z.to_nat iy)) (fun row =>
  bind (get row (Z.to_nat iz)) (fun bin =>
  bind (set row (Z.to_nat iz) (bin ++ [(vx p, atom)])) (fun row' =>
  bind (set (v_bins v) (Z.to_nat iy) row') (fun bins =>
  Ok {| v_ny := v_ny v; v_nz := v_nz v; v_sizeY := v_sizeY v; v_sizeZ := v_sizeZ v; v_a := v_a v; v_b := v_b v; v_c := v_c v; v_bins := bins |})))).

(** All atoms one after the other, as a caller does (the repository has no caller yet). *)
Definition insert_all (v : voxels) (ps : list vec) : result voxels :=
  foldM (fun v a => bind (get ps a) (fun p => voxel_insert v a p)) (seq 0 (length ps)) v.

(** CpuNeighborList.cc:119-125, [sortItems].  [std_sort] is any function; what it has to
    satisfy is stated with the theorems. *)
Definition sort_items (std_sort : list (R * nat) -> list (R * nat)) (v : voxels) : voxels :=
  {| v_ny := v_ny v; v_nz := v_nz v; v_sizeY := v_sizeY v; v_sizeZ := v_sizeZ v; v_a := v_a v; v_b := v_b v; v_c := v_c v;
     v_bins := map (map std_sort) (v_bins v) |}.

(** CpuNeighborList.cc:138-150, the loop of [findLowerBound].  [fuel] bounds the number of
    iterations; [None] would be a loop that does not finish. *)
Fixpoint lower_loop (fuel : nat) (bin : list (R * nat)) (x : R) (lower upper : nat) : option (result nat) :=
  match fuel with
  | 0 => if lower <? upper then None else Some (Ok lower)
  | S f =>
    if lower <? upper then
      let middle := (lower + upper) / 2 in
      match get bin middle with
      | Err e => Some (Err e)
      | Ok it => if Rlt_dec (fst it) x then lower_loop f bin x (middle + 1) upper else lower_loop f bin x lower middle
      end
    else Some (Ok lower)
  end.

(** CpuNeighborList.cc:163-175, the loop of [findUpperBound]. *)
Fixpoint upper_loop (fuel : nat) (bin : list (R * nat)) (x : R) (lower upper : nat) : option (result nat) :=
  match fuel with
  | 0 => if lower <? upper then None else Some (Ok upper)
  | S f =>
    if lower <? upper then
      let middle := (lower + upper) / 2 in
      match get bin middle with
      | Err e => Some (Err e)
      | Ok it => if Rlt_dec x (fst it) then upper_loop f bin x lower middle else upper_loop f bin x (middle + 1) upper
      end
    else Some (Ok upper)
  end.
