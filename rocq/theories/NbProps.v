(** Properties C37-C46: the C++ periodic neighbour search. *)
From Verif Require Import Vec SeSpec NbModel NbSpec NbMlffModel NbMlffSpec NbSearchProofs NbGeomProofs NbProofs NbDupProofs NbMlffProofs NbGlue NbWitness NbFinal.
Open Scope Z_scope.

(** ** C37 *)

(** Scaling by positive factors: one list of distinct shifts covering exactly
    the centred box, every shift applied to every atom, element kept. *)
Theorem C37_supercell_copies :
  forall s0 s1 s2 c, 0 < s0 -> 0 < s1 -> 0 < s2 -> length (numbers c) = length (coords c) ->
  exists sup ts, make_supercell s0 s1 s2 c = Ok sup /\
    NoDup ts /\ Z.of_nat (length ts) = s0 * s1 * s2 /\
    (forall i j k, In (i, j, k) ts <-> centred s0 i /\ centred s1 j /\ centred s2 k) /\
    length (coords sup) = (length ts * length (coords c))%nat /\ length (numbers sup) = length (coords sup) /\
    (forall q t a x z, nth_error ts q = Some t -> nth_error (coords c) a = Some x -> nth_error (numbers c) a = Some z ->
       nth_error (coords sup) (q * length (coords c) + a) = Some (vadd x (lattice_vec c t)) /\
       nth_error (numbers sup) (q * length (coords c) + a) = Some z) /\
    bA sup = vscale (IZR s0) (bA c) /\ bB sup = vscale (IZR s1) (bB c) /\ bC sup = vscale (IZR s2) (bC c).
Proof. exact supercell_final. Qed.
Print Assumptions C37_supercell_copies.

(** The arrays are filled exactly when all factors are positive or the supercell has no atoms;
    two negative factors ask for memory that is never filled. *)
Theorem C37_defined :
  forall s0 s1 s2 c, length (numbers c) = length (coords c) -> coords c <> [] ->
  (exists sup, make_supercell s0 s1 s2 c = Ok sup) <-> (0 < s0 /\ 0 < s1 /\ 0 < s2) \/ s0 * s1 * s2 = 0.
Proof. exact supercell_defined. Qed.
Print Assumptions C37_defined.

(** The corner of the supercell is its lowest shift. *)
Theorem C37_origin :
  forall s0 s1 s2 c sup, 0 < s0 -> 0 < s1 -> 0 < s2 -> length (numbers c) = length (coords c) ->
  make_supercell s0 s1 s2 c = Ok sup ->
  exists i j k, origin sup = lattice_vec c (i, j, k) /\ centred s0 i /\ centred s1 j /\ centred s2 k /\
    (forall i', centred s0 i' -> i <= i') /\ (forall j', centred s1 j' -> j <= j') /\ (forall k', centred s2 k' -> k <= k').
Proof. exact origin_final. Qed.
Print Assumptions C37_origin.

(** The box contains 0 and is symmetric for odd factors. *)
Theorem C37_box_symmetric :
  forall s, 0 < s -> centred s 0 /\ (Z.Odd s -> forall i, centred s i -> centred s (- i)).
Proof. exact centred_facts. Qed.
Print Assumptions C37_box_symmetric.

Example C37_case : centred 3 (-1) /\ ~ centred 2 (-1) /\ centred 2 1.
Proof. unfold centred. lia. Qed.

(** ** C38 *)

(** For odd factors the owned atoms are the original ones, in order. *)
Theorem C38_owned_are_original :
  forall s0 s1 s2 c sup, 0 < s0 -> 0 < s1 -> 0 < s2 -> Z.Odd s0 -> Z.Odd s1 -> Z.Odd s2 ->
  length (numbers c) = length (coords c) -> make_supercell s0 s1 s2 c = Ok sup ->
  mapM (arr_get (coords sup)) (owned_atom_idxs s0 s1 s2 (length (coords c))) = Ok (coords c) /\
  mapM (arr_get (numbers sup)) (owned_atom_idxs s0 s1 s2 (length (coords c))) = Ok (numbers c).
Proof. exact owned_final. Qed.
Print Assumptions C38_owned_are_original.

Example C38_case : owned_atom_idxs 3 1 5 2 = [14; 15] /\ Z.Odd 3 /\ Z.Odd 1 /\ Z.Odd 5.
Proof. split; [reflexivity|]. repeat split; [exists 1|exists 0|exists 2]; reflexivity. Qed.

(** With an even factor they can be another copy. *)
Theorem C38_even_refuted :
  exists sup p, make_supercell 3 2 1 one_cell = Ok sup /\ owned_atom_idxs 3 2 1 1 = [1] /\
  arr_get (coords sup) 1 = Ok p /\ p <> (0, 0, 0)%R /\ In (0, 0, 0)%R (coords sup).
Proof. exact even_scaling_wrong. Qed.
Print Assumptions C38_even_refuted.

(** ** C39 *)

(** Following a chain stops and gives the atoms of that bin, each once. *)
Theorem C39_chains :
  forall nbins bins, Forall (fun b => 0 <= b < nbins) bins ->
  exists heads nexts, build_lists nbins bins = Ok (heads, nexts) /\
    forall b, 0 <= b < nbins -> exists h l, arr_get heads b = Ok h /\ walk (S (length nexts)) nexts h = Ok l /\
      NoDup l /\ forall a, In a l <-> 0 <= a /\ nth_error bins (Z.to_nat a) = Some b.
Proof. exact chains_final. Qed.
Print Assumptions C39_chains.

(** Building stays inside the arrays exactly when every bin number is in range. *)
Theorem C39_success_iff :
  forall nbins bins, (exists hn, build_lists nbins bins = Ok hn) <-> Forall (fun b => 0 <= b < nbins) bins.
Proof. exact build_success. Qed.
Print Assumptions C39_success_iff.

Example C39_case : build_lists 3 [2; 0; 2; 2] = Ok ([1; -1; 3], [-1; -1; 0; 2]) /\ walk 5 [-1; -1; 0; 2] 3 = Ok [3; 2; 0].
Proof. split; reflexivity. Qed.

(** ** C40 *)

(** Atoms inside the unit cell: every copy has a bin, along each axis. *)
Theorem C40_bins_in_range :
  forall s0 s1 s2 sizes pbc c sup p, 0 < s0 -> 0 < s1 -> 0 < s2 -> positive3 sizes ->
  length (numbers c) = length (coords c) -> wrapped c -> faces_positive c ->
  make_supercell s0 s1 s2 c = Ok sup -> In p (coords sup) ->
  let g := make_grid sizes pbc sup in
  let '(b0, b1, b2) := bin_xyz g p in let '(n0, n1, n2) := g_num g in
  0 <= b0 < n0 /\ 0 <= b1 < n1 /\ 0 <= b2 < n2.
Proof. exact in_range_final. Qed.
Print Assumptions C40_bins_in_range.

(** One axis with components a, b, c of the three vectors, exactly: the index is
    out of range just when the point sits on the far face and the box is a
    whole number of bins long. *)
Theorem C40_axis_exact :
  forall a b c o g0 g1 g2 size, (0 < size)%R -> (0 <= g0 < 1)%R -> (0 <= g1 < 1)%R -> (0 <= g2 < 1)%R ->
  (0 <= axis_bin (o + g0 * a + g1 * b + g2 * c) (o + Rmin 0 a + Rmin 0 b + Rmin 0 c) size < axis_num (Rabs a + Rabs b + Rabs c) size <->
   ~ ((a <= 0 /\ (g0 = 0 \/ a = 0)) /\ (b <= 0 /\ (g1 = 0 \/ b = 0)) /\ (c <= 0 /\ (g2 = 0 \/ c = 0)) /\
      exists k, Rabs a + Rabs b + Rabs c = IZR k * size)%R).
Proof. exact axis_range_iff. Qed.
Print Assumptions C40_axis_exact.

(** Without a positive component along x an atom at the origin gets the wrong
    bin, and a true neighbour is missed. *)
Theorem C40_far_face_refuted :
  proper negative_cell /\ wrapped negative_cell /\
  exists sup l0 l1, neighbor_lists_default 2 (false, false, false) negative_cell = Ok (sup, [l0; l1]) /\
  is_neighbour 2 (false, false, false) negative_cell 1 0 (0, 0, 0) /\ ~ In 0 l1.
Proof. exact (conj negative_proper (conj negative_wrapped missed_neighbour)). Qed.
Print Assumptions C40_far_face_refuted.

(** An atom outside the unit cell makes the code write outside its arrays. *)
Theorem C40_unwrapped_refuted :
  neighbor_lists_default 2 (false, false, false) outside_cell = Err IndexError.
Proof. exact outside_fails. Qed.
Print Assumptions C40_unwrapped_refuted.

(** ** C41 *)

(** The list of an atom: exactly the supercell atoms within the shell. *)
Theorem C41_exact :
  forall rcut sizes pbc c, (0 < rcut)%R -> positive3 sizes -> proper c -> wrapped c -> faces_positive c ->
  exists sup lists, neighbor_lists rcut sizes pbc c = Ok (sup, lists) /\ length lists = length (coords c) /\
    forall i xi, nth_error (coords c) i = Some xi -> exists l, nth_error lists i = Some l /\
      forall m, In m l <-> 0 <= m /\ exists p, nth_error (coords sup) (Z.to_nat m) = Some p /\ (1 / 1000 < dist2 p xi < rcut * rcut)%R.
Proof. exact exact_final. Qed.
Print Assumptions C41_exact.

(** Two different atoms 0.03 apart are not listed as neighbours. *)
Theorem C41_close_atoms_refuted :
  proper close_cell /\ wrapped close_cell /\ faces_positive close_cell /\
  exists sup, neighbor_lists_default 2 (false, false, false) close_cell = Ok (sup, [[]; []]).
Proof. exact (conj close_proper (conj close_wrapped (conj close_faces close_dropped))). Qed.
Print Assumptions C41_close_atoms_refuted.

(** ** C42 *)

(** The lists hold exactly the periodic neighbours: sound and complete. *)
Theorem C42_periodic_neighbours :
  forall rcut sizes pbc c, (0 < rcut)%R -> positive3 sizes -> proper c -> wrapped c -> faces_positive c ->
  exists sup lists, neighbor_lists rcut sizes pbc c = Ok (sup, lists) /\ length lists = length (coords c) /\
    forall i l, nth_error lists i = Some l ->
      (forall m, In m l -> exists j t xj, 0 <= m /\ m mod Z.of_nat (length (coords c)) = Z.of_nat j /\ is_neighbour rcut pbc c i j t /\
         nth_error (coords c) j = Some xj /\ nth_error (coords sup) (Z.to_nat m) = Some (vadd xj (lattice_vec c t)) /\
         nth_error (numbers sup) (Z.to_nat m) = nth_error (numbers c) j) /\
      (forall j t, is_neighbour rcut pbc c i j t -> exists m xj, In m l /\ m mod Z.of_nat (length (coords c)) = Z.of_nat j /\
         nth_error (coords c) j = Some xj /\ nth_error (coords sup) (Z.to_nat m) = Some (vadd xj (lattice_vec c t))).
Proof. exact periodic_final. Qed.
Print Assumptions C42_periodic_neighbours.

(** A cell meeting the hypotheses, with a neighbour across the boundary. *)
Example C42_case : proper unit_cell /\ wrapped unit_cell /\ faces_positive unit_cell /\
  is_neighbour 1 (true, true, true) unit_cell 0 1 (1, 0, 0).
Proof.
  split; [exact unit_proper|]. split; [exact unit_wrapped|]. split; [exact unit_faces|].
  exists ((1 / 2)%R, 0%R, 0%R), ((2 / 5)%R, 0%R, 0%R). split; [reflexivity|]. split; [reflexivity|].
  split; [cbn; repeat split; discriminate|]. unfold lattice_vec, unit_cell, two_cell. cbn [bA bB bC]. vec_unfold. lra.
Qed.

(** ** C43 *)

(** Enough bins along the periodic axes: nothing listed twice. *)
Theorem C43_enough_bins :
  forall rcut sizes pbc c sup lists, (0 < rcut)%R -> positive3 sizes -> proper c -> wrapped c -> faces_positive c ->
  neighbor_lists rcut sizes pbc c = Ok (sup, lists) ->
  (let '(n0, n1, n2) := g_num (make_grid sizes pbc sup) in let '(w0, w1, w2) := pbc in
   (w0 = true -> 2 * axis_ext rcut (vx sizes) + 1 <= n0) /\ (w1 = true -> 2 * axis_ext rcut (vy sizes) + 1 <= n1) /\
   (w2 = true -> 2 * axis_ext rcut (vz sizes) + 1 <= n2)) ->
  Forall (@NoDup Z) lists.
Proof. exact nodup_bins_final. Qed.
Print Assumptions C43_enough_bins.

(** The default bins are always enough for crystals, aligned slabs, wires and molecules. *)
Theorem C43_default_bins :
  forall rcut pbc c, (0 < rcut)%R -> proper c -> wrapped c -> faces_positive c -> aligned_pbc pbc c ->
  exists sup lists, neighbor_lists_default rcut pbc c = Ok (sup, lists) /\ length lists = length (coords c) /\ Forall (@NoDup Z) lists.
Proof. exact nodup_default_final. Qed.
Print Assumptions C43_default_bins.

Example C43_case : aligned_pbc (true, true, true) unit_cell.
Proof. exact (aligned_full unit_cell). Qed.

(** With other bin sizes a neighbour is listed twice. *)
Theorem C43_custom_bins_refuted :
  exists sup lists l, neighbor_lists 1 (4/5, 4/5, 4/5)%R (true, true, true) unit_cell = Ok (sup, lists) /\
  nth_error lists 0 = Some l /\ ~ NoDup l.
Proof. exact dup_custom_bins. Qed.
Print Assumptions C43_custom_bins_refuted.

(** Also with default bins, when the periodic vector does not follow its axis. *)
Theorem C43_partial_pbc_refuted :
  proper swapped_cell /\ wrapped swapped_cell /\ faces_positive swapped_cell /\
  exists sup lists l, neighbor_lists_default 4 (true, false, false) swapped_cell = Ok (sup, lists) /\
  nth_error lists 0 = Some l /\ ~ NoDup l.
Proof. exact (conj swapped_proper (conj swapped_wrapped (conj swapped_faces dup_default_bins))). Qed.
Print Assumptions C43_partial_pbc_refuted.

(** ** C44 *)

(** If m is listed for i, some image of i with the opposite displacement is
    listed for the atom m is an image of. *)
Theorem C44_symmetric :
  forall rcut sizes pbc c sup lists, (0 < rcut)%R -> positive3 sizes -> proper c -> wrapped c -> faces_positive c ->
  neighbor_lists rcut sizes pbc c = Ok (sup, lists) ->
  forall i l m p, nth_error lists i = Some l -> In m l -> nth_error (coords sup) (Z.to_nat m) = Some p ->
  exists j l' m' p' xi xj, m mod Z.of_nat (length (coords c)) = Z.of_nat j /\ nth_error lists j = Some l' /\ In m' l' /\
    m' mod Z.of_nat (length (coords c)) = Z.of_nat i /\ nth_error (coords sup) (Z.to_nat m') = Some p' /\
    nth_error (coords c) i = Some xi /\ nth_error (coords c) j = Some xj /\ vsub p' xj = vscale (-1) (vsub p xi).
Proof. exact symmetric_final. Qed.
Print Assumptions C44_symmetric.

(** ** C45 *)

(** Any sort that keeps its contract yields rearranged lists with
    non-decreasing distances. *)
Theorem C45_sorted :
  forall sort rcut sizes pbc c, sort_contract sort -> (0 < rcut)%R -> positive3 sizes -> proper c -> wrapped c -> faces_positive c ->
  exists sup lists sorted, neighbor_lists rcut sizes pbc c = Ok (sup, lists) /\
    neighbor_lists_sorted sort rcut sizes pbc c = Ok (sup, sorted) /\ length sorted = length lists /\
    forall i xi l, nth_error (coords c) i = Some xi -> nth_error lists i = Some l ->
      exists l', nth_error sorted i = Some l' /\ Permutation l l' /\ by_increasing_distance (coords sup) xi l'.
Proof. exact sorted_spec. Qed.
Print Assumptions C45_sorted.

(** The contract can be kept, and the comparison is admissible. *)
Theorem C45_contract_satisfiable : (exists sort, sort_contract sort) /\ forall ds, strict_weak (by_distance ds).
Proof. exact (conj (ex_intro _ isort isort_contract) by_distance_sw). Qed.
Print Assumptions C45_contract_satisfiable.

(** ** C46 *)

(** Wide enough rows: every slot holds a periodic neighbour with its
    displacement, or padding. *)
Theorem C46_arrays :
  forall rcut sizes pbc c (umax : nat), (0 < rcut)%R -> positive3 sizes -> proper c -> wrapped c -> faces_positive c ->
  exists sup lists, neighbor_lists rcut sizes pbc c = Ok (sup, lists) /\ length lists = length (coords c) /\
    (max_num_neigh lists <= Z.of_nat umax ->
     exists info, find_info4mlff sup (prim_index rcut pbc c) lists (Z.of_nat umax) = Ok info /\
       i_types info = numbers c /\
       forall i l j, nth_error lists i = Some l -> (j < umax)%nat ->
         nth_error (i_numneigh info) i = Some (Z.of_nat (length l)) /\
         if (j <? length l)%nat
         then exists b t xi xb, is_neighbour rcut pbc c i b t /\ nth_error (coords c) i = Some xi /\ nth_error (coords c) b = Some xb /\
                nth_error (i_firstneigh info) (i * umax + j) = Some (Z.of_nat b) /\
                forall k, (k < 3)%nat -> nth_error (i_relative info) ((i * umax + j) * 3 + k) = Some (coord k (vsub (vadd xb (lattice_vec c t)) xi))
         else nth_error (i_firstneigh info) (i * umax + j) = Some (-1) /\
              forall k, (k < 3)%nat -> nth_error (i_relative info) ((i * umax + j) * 3 + k) = Some 0%R).
Proof. exact arrays_coord. Qed.
Print Assumptions C46_arrays.

(** The same for any lists, slot by slot in the order of the list. *)
Theorem C46_slots :
  forall sup pidx lists (umax : nat) (cs : list vec),
  length cs = length lists -> (length lists <= length (numbers sup))%nat ->
  (forall i x, nth_error cs i = Some x -> arr_get (coords sup) (Z.of_nat i + pidx * Z.of_nat (length lists)) = Ok x) ->
  Forall (Forall (fun m => 0 <= m < Z.of_nat (length (coords sup)))) lists ->
  Forall (fun l => (length l <= umax)%nat) lists ->
  exists info, find_info4mlff sup pidx lists (Z.of_nat umax) = Ok info /\
    i_ilist info = map Z.of_nat (seq 0 (length lists)) /\ i_nghost info = 0 /\
    i_numneigh info = map (fun l => Z.of_nat (length l)) lists /\
    i_types info = firstn (length lists) (numbers sup) /\
    length (i_firstneigh info) = (length lists * umax)%nat /\
    length (i_relative info) = (length lists * umax * 3)%nat /\
    forall i l x j, nth_error lists i = Some l -> nth_error cs i = Some x -> (j < umax)%nat ->
      match nth_error l j with
      | Some m => nth_error (i_firstneigh info) (i * umax + j) = Some (m mod Z.of_nat (length lists)) /\
                  exists q, arr_get (coords sup) m = Ok q /\ forall k, (k < 3)%nat ->
                    nth_error (i_relative info) ((i * umax + j) * 3 + k) = Some (coord k (vsub q x))
      | None => nth_error (i_firstneigh info) (i * umax + j) = Some (-1) /\
                forall k, (k < 3)%nat -> nth_error (i_relative info) ((i * umax + j) * 3 + k) = Some 0%R
      end.
Proof. exact find_info_coord. Qed.
Print Assumptions C46_slots.

(** The width the library offers is the least that fits. *)
Theorem C46_max_width :
  forall lists, (forall l, In l lists -> Z.of_nat (length l) <= max_num_neigh lists) /\
  (lists <> [] -> exists l, In l lists /\ Z.of_nat (length l) = max_num_neigh lists).
Proof. exact max_final. Qed.
Print Assumptions C46_max_width.

(** The count by element: the largest number of [zn] neighbours of a [zc] atom. *)
Theorem C46_max_typed :
  forall ns zc zn lists, (length lists <= length ns)%nat -> Forall (Forall (fun m => 0 <= m < Z.of_nat (length ns))) lists ->
  exists k, max_num_neigh_typed ns zc zn lists = Ok k /\
    (forall i l, nth_error lists i = Some l -> nth_error ns i = Some zc -> Z.of_nat (typed_count ns zn l) <= k) /\
    (k = 0 \/ exists i l, nth_error lists i = Some l /\ nth_error ns i = Some zc /\ k = Z.of_nat (typed_count ns zn l)).
Proof. exact typed_final. Qed.
Print Assumptions C46_max_typed.

Example C46_max_typed_case : max_num_neigh_typed [1; 8; 1; 8] 1 8 [[1; 3; 2]; [0]] = Ok 2.
Proof. reflexivity. Qed.

(** A last list longer than the row runs over the end of the array. *)
Theorem C46_last_row_overflow :
  forall sup pidx lists last umax, (length lists < length (numbers sup))%nat -> 0 <= umax < Z.of_nat (length last) ->
  find_info4mlff sup pidx (lists ++ [last]) umax = Err IndexError.
Proof. exact last_overflow. Qed.
Print Assumptions C46_last_row_overflow.

(** Another long list spills into the row of an atom without neighbours. *)
Theorem C46_spill_refuted :
  exists sup info, find_info4mlff sup 0 [[1; 1; 1]; []] 2 = Ok info /\
  i_numneigh info = [3; 0] /\ i_firstneigh info = [1; 1; 1; -1].
Proof. exact middle_overflow. Qed.
Print Assumptions C46_spill_refuted.
