(** Model of the C++ periodic neighbour search:
    source/nblist/include/structure.h, binLinkedList.h and neighborList.h.

    Real numbers stand for [CoordType]; integers are unbounded (no [int]
    overflow).  An access outside an allocated array is modelled as
    [Err IndexError] (undefined behaviour in C++).  Memory management (malloc,
    free, copying of the objects) is not part of this model. *)
From Verif Require Export Vec.
Open Scope Z_scope.

(** [std::floor] and [std::ceil] converted to [int]. *)
Definition floorZ (x : R) : Z := up x - 1.
Definition ceilZ (x : R) : Z := - floorZ (- x)%R.

Definition Rltb (x y : R) : bool := if Rlt_dec x y then true else false.

(** [a[i]] and [a[i] = x] with bounds. *)
Definition arr_get {A} (l : list A) (i : Z) : result A :=
  if i <? 0 then Err IndexError else get l (Z.to_nat i).
Fixpoint set_nth {A} (l : list A) (i : nat) (x : A) : option (list A) :=
  match l, i with
  | [], _ => None
  | _ :: r, O => Some (x :: r)
  | y :: r, S i' => match set_nth r i' x with Some r' => Some (y :: r') | None => None end
  end.
Definition arr_set {A} (l : list A) (i : Z) (x : A) : result (list A) :=
  if i <? 0 then Err IndexError
  else match set_nth l (Z.to_nat i) x with Some l' => Ok l' | None => Err IndexError end.

(** structure.h:20-95, the data members that matter here. *)
Record cell : Type := {
  bA : vec; bB : vec; bC : vec;       (* basis_vectors[0..2] *)
  numbers : list Z;                   (* atomic_numbers *)
  coords : list vec;                  (* cart_coords *)
  origin : vec                        (* pseudo_orgin *)
}.
Definition num_atoms (c : cell) : Z := Z.of_nat (length (coords c)).

(** structure.h:491-499; C++ division truncates towards zero. *)
Definition scale_range (s : Z) : Z * Z :=
  if Z.rem s 2 =? 0 then (Z.quot (- s) 2 + 1, Z.quot s 2)
  else (Z.quot (- (s - 1)) 2, Z.quot (s - 1) 2).

(** [for (int ii=lo; ii<=hi; ii++)] *)
Definition zrange (lo hi : Z) : list Z :=
  map (fun k => lo + Z.of_nat k) (seq 0 (Z.to_nat (hi - lo + 1))).

(** structure.h:546-553: the loop over the copies, last index fastest. *)
Definition shifts3 (s0 s1 s2 : Z) : list (Z * Z * Z) :=
  flat_map (fun i => flat_map (fun j => map (fun k => (i, j, k))
    (zrange (fst (scale_range s2)) (snd (scale_range s2))))
    (zrange (fst (scale_range s1)) (snd (scale_range s1))))
    (zrange (fst (scale_range s0)) (snd (scale_range s0))).

(** structure.h:554-570 *)
Definition shift_by (A B C : vec) (t : Z * Z * Z) (p : vec) : vec :=
  let '(i, j, k) := t in vadd p (comb A B C (IZR i) (IZR j) (IZR k)).

(** structure.h:482-601.  The arrays are allocated for [n*s0*s1*s2] atoms; a
    different number of writes would run over the end or leave garbage. *)
Definition make_supercell (s0 s1 s2 : Z) (c : cell) : result cell :=
  let n := num_atoms c * s0 * s1 * s2 in
  let numbers' := concat (repeat (numbers c) (Z.to_nat (s0 * s1 * s2))) in
  let coords' := flat_map (fun t => map (shift_by (bA c) (bB c) (bC c) t) (coords c)) (shifts3 s0 s1 s2) in
  if (Z.of_nat (length numbers') =? n) && (Z.of_nat (length coords') =? n) then
    Ok {| bA := vscale (IZR s0) (bA c); bB := vscale (IZR s1) (bB c); bC := vscale (IZR s2) (bC c);
          numbers := numbers'; coords := coords';
          origin := comb (bA c) (bB c) (bC c) (IZR (fst (scale_range s0)))
                         (IZR (fst (scale_range s1))) (IZR (fst (scale_range s2))) |}
  else Err IndexError.

(** binLinkedList.h:450-465 *)
Definition prim_cell_idx1 (s : Z) : Z :=
  if negb (Z.rem s 2 =? 0) then Z.quot (s - 1) 2 else Z.quot s 2 - 1.
(** binLinkedList.h:473-480 *)
Definition prim_cell_idx (s0 s1 s2 : Z) : Z :=
  prim_cell_idx1 s0 + prim_cell_idx1 s1 * s0 + prim_cell_idx1 s2 * s0 * s1.
(** binLinkedList.h:488-493 *)
Definition owned_atom_idxs (s0 s1 s2 : Z) (n : nat) : list Z :=
  map (fun i => prim_cell_idx s0 s1 s2 * Z.of_nat n + Z.of_nat i) (seq 0 n).

(** vec3Operation.h:82-91 *)
Definition normalize (v : vec) : vec :=
  let l := sqrt (norm2 v) in ((vx v / l)%R, (vy v / l)%R, (vz v / l)%R).
(** structure.h:711-736 *)
Definition interplanar (c : cell) : vec :=
  (Rabs (dot (bA c) (normalize (cross (bB c) (bC c)))),
   Rabs (dot (bB c) (normalize (cross (bA c) (bC c)))),
   Rabs (dot (bC c) (normalize (cross (bA c) (bB c))))).
(** structure.h:679-702 *)
Definition projected_lengths (c : cell) : vec :=
  ((Rabs (vx (bA c)) + Rabs (vx (bB c)) + Rabs (vx (bC c)))%R,
   (Rabs (vy (bA c)) + Rabs (vy (bB c)) + Rabs (vy (bC c)))%R,
   (Rabs (vz (bA c)) + Rabs (vz (bB c)) + Rabs (vz (bC c)))%R).

(** structure.h:751-789 *)
Definition vertexes (c : cell) : list vec :=
  flat_map (fun i => flat_map (fun j => map (fun k =>
    vadd (origin c) (comb (bA c) (bB c) (bC c) i j k)) [0; 1]%R) [0; 1]%R) [0; 1]%R.
(** structure.h:792-837, the minima only (the maxima are never used). *)
Fixpoint running_min (m : R) (l : list R) : R :=
  match l with
  | [] => m
  | x :: r => running_min (if Rltb x m then x else m) r
  end.
Definition min_along (f : vec -> R) (c : cell) : R :=
  match vertexes c with
  | [] => 0%R
  | v :: r => running_min (f v) (map f r)
  end.
Definition min_limit (c : cell) : vec := (min_along vx c, min_along vy c, min_along vz c).

(** One axis: binLinkedList.h:821-823, 613, 918-919, 940-945. *)
Definition axis_bin (x lo size : R) : Z := floorZ ((x - lo) / size)%R.
Definition axis_num (len size : R) : Z := ceilZ (len / size)%R.
Definition axis_ext (rcut size : R) : Z := ceilZ (rcut / size)%R.
Definition axis_wrap (pbc : bool) (num cand : Z) : Z :=
  if pbc then Z.rem (cand + num) num else cand.

Record grid : Type := {
  g_size : vec;                       (* bin_size_xyz *)
  g_num : Z * Z * Z;                  (* num_bin_xyz *)
  g_min : vec;                        (* min_limit_xyz *)
  g_pbc : bool * bool * bool          (* pbc_xyz *)
}.

Definition bin_xyz (g : grid) (p : vec) : Z * Z * Z :=
  (axis_bin (vx p) (vx (g_min g)) (vx (g_size g)),
   axis_bin (vy p) (vy (g_min g)) (vy (g_size g)),
   axis_bin (vz p) (vz (g_min g)) (vz (g_size g))).
(** binLinkedList.h:824-828 *)
Definition flat (num : Z * Z * Z) (b : Z * Z * Z) : Z :=
  let '(n0, n1, n2) := num in let '(b0, b1, b2) := b in b0 + b1 * n0 + b2 * n0 * n1.
Definition num_bins (num : Z * Z * Z) : Z := let '(n0, n1, n2) := num in n0 * n1 * n2.

(** binLinkedList.h:818-831: insert atom [ii], living in bin [b], at the head of
    its chain. *)
Fixpoint link (ii : Z) (bins : list Z) (heads nexts : list Z) : result (list Z * list Z) :=
  match bins with
  | [] => Ok (heads, nexts)
  | b :: r =>
      bind (arr_get heads b) (fun h =>
      bind (arr_set nexts ii h) (fun nexts' =>
      bind (arr_set heads b ii) (fun heads' =>
      link (ii + 1) r heads' nexts')))
  end.
(** binLinkedList.h:804-832 *)
Definition build_lists (nbins : Z) (bins : list Z) : result (list Z * list Z) :=
  link 0 bins (repeat (-1) (Z.to_nat nbins)) (repeat (-1) (length bins)).

(** binLinkedList.h:1012, 1029: follow a chain.  [fuel] bounds the number of
    steps; running out of it would be an endless loop. *)
Fixpoint walk (fuel : nat) (nexts : list Z) (a : Z) : result (list Z) :=
  match fuel with
  | O => Err NotImplementedError
  | S fuel' =>
      if a =? -1 then Ok []
      else bind (arr_get nexts a) (fun a' => bind (walk fuel' nexts a') (fun r => Ok (a :: r)))
  end.

(** binLinkedList.h:895-978 *)
Definition neigh_bins (rcut : R) (g : grid) (p : vec) : list Z :=
  let '(b0, b1, b2) := bin_xyz g p in
  let e0 := axis_ext rcut (vx (g_size g)) in
  let e1 := axis_ext rcut (vy (g_size g)) in
  let e2 := axis_ext rcut (vz (g_size g)) in
  let '(n0, n1, n2) := g_num g in
  let '(w0, w1, w2) := g_pbc g in
  flat_map (fun i => flat_map (fun j => map (fun k =>
    let c0 := axis_wrap w0 n0 (b0 + i) in
    let c1 := axis_wrap w1 n1 (b1 + j) in
    let c2 := axis_wrap w2 n2 (b2 + k) in
    if (0 <=? c0) && (c0 <? n0) && (0 <=? c1) && (c1 <? n1) && (0 <=? c2) && (c2 <? n2)
    then flat (g_num g) (c0, c1, c2) else -1)
    (zrange (- e2) e2)) (zrange (- e1) e1)) (zrange (- e0) e0).

(** binLinkedList.h:13, 1021-1024 *)
Definition in_shell (rcut : R) (centre q : vec) : bool :=
  let d2 := dist2 q centre in
  Rltb d2 (rcut * rcut)%R && Rltb (1 / 1000)%R d2.

(** binLinkedList.h:1009-1032 *)
Fixpoint scan_chain (rcut : R) (pos : list vec) (centre : vec) (chain : list Z) : result (list Z) :=
  match chain with
  | [] => Ok []
  | a :: r =>
      bind (arr_get pos a) (fun q =>
      bind (scan_chain rcut pos centre r) (fun l =>
      Ok (if in_shell rcut centre q then a :: l else l)))
  end.
Fixpoint scan_bins (rcut : R) (pos : list vec) (centre : vec) (heads nexts : list Z) (bs : list Z) : result (list Z) :=
  match bs with
  | [] => Ok []
  | b :: r =>
      bind (if b =? -1 then Ok []
            else bind (arr_get heads b) (fun h =>
                 bind (walk (S (length nexts)) nexts h) (fun chain =>
                 scan_chain rcut pos centre chain))) (fun l1 =>
      bind (scan_bins rcut pos centre heads nexts r) (fun l2 => Ok (l1 ++ l2)))
  end.

(** binLinkedList.h:804-832 followed by 988-1037, for one centre position. *)
Definition search (rcut : R) (g : grid) (pos : list vec) (centre : vec) : result (list Z) :=
  bind (build_lists (num_bins (g_num g)) (map (fun p => flat (g_num g) (bin_xyz g p)) pos)) (fun hn =>
  scan_bins rcut pos centre (fst hn) (snd hn) (neigh_bins rcut g centre)).

(** binLinkedList.h:600-607 *)
Definition scaling1 (rcut : R) (pbc : bool) (d : R) : Z :=
  if pbc then ceilZ (rcut / d)%R * 2 + 1 else 1.

(** binLinkedList.h:587-636; the bin sizes are given. *)
Definition make_grid (sizes : vec) (pbc : bool * bool * bool) (sup : cell) : grid :=
  let len := projected_lengths sup in
  {| g_size := sizes;
     g_num := (axis_num (vx len) (vx sizes), axis_num (vy len) (vy sizes), axis_num (vz len) (vz sizes));
     g_min := min_limit sup;
     g_pbc := pbc |}.

(** neighborList.h:141-148, 259-269 (unsorted): the constructor with explicit
    bin sizes; one list of supercell indices per primitive atom. *)
Definition neighbor_lists (rcut : R) (sizes : vec) (pbc : bool * bool * bool) (c : cell) : result (cell * list (list Z)) :=
  let '(p0, p1, p2) := pbc in
  let d := interplanar c in
  let s0 := scaling1 rcut p0 (vx d) in
  let s1 := scaling1 rcut p1 (vy d) in
  let s2 := scaling1 rcut p2 (vz d) in
  bind (make_supercell s0 s1 s2 c) (fun sup =>
  let g := make_grid sizes pbc sup in
  bind (mapM (fun i =>
    bind (arr_get (coords sup) (Z.of_nat i + prim_cell_idx s0 s1 s2 * num_atoms c)) (fun centre =>
    search rcut g (coords sup) centre)) (seq 0 (length (coords c)))) (fun lists =>
  Ok (sup, lists))).
(** binLinkedList.h:652: without bin sizes they are [rcut/2]. *)
Definition neighbor_lists_default (rcut : R) (pbc : bool * bool * bool) (c : cell) : result (cell * list (list Z)) :=
  neighbor_lists rcut ((rcut / 2)%R, (rcut / 2)%R, (rcut / 2)%R) pbc c.

(** The scalings the search uses, and the index of the unshifted copy it keeps
    (binLinkedList.h:600-607 and 473-480). *)
Definition scalings (rcut : R) (pbc : bool * bool * bool) (c : cell) : Z * Z * Z :=
  let '(w0, w1, w2) := pbc in
  (scaling1 rcut w0 (vx (interplanar c)), scaling1 rcut w1 (vy (interplanar c)), scaling1 rcut w2 (vz (interplanar c))).

Definition prim_index (rcut : R) (pbc : bool * bool * bool) (c : cell) : Z :=
  let '(s0, s1, s2) := scalings rcut pbc c in prim_cell_idx s0 s1 s2.
