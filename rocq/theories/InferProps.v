(** C87, the input of a force field: the arrays [DpInfer] builds from a structure.  Centre
    elements with averages and deviations are [cs], neighbour elements with the widths of their
    columns are [zws]. *)
From Verif Require Import Arr Vec StructModel SiteIndexModel SeModel NeighModel StatsModel InferModel NeighSpec SeSpec SiteIndexSpec StructSpec.
From Verif Require Import NeighReal InferFinal InferCases InferSpec.
Local Open Scope nat_scope.

(** ** C87 *)

(** The rows are the sites grouped by element in the order of the centre elements.  If every column
    group is wide enough for every row, all four arrays have one row per such site and row by row:
    a column of [rc] holds the position of a neighbour relative to the centre, the same column of
    [list_neigh] the number of the site (from 1) that neighbour is an image of; a column of
    [tildeR] holds the environment entries of a neighbour less the averages in units of the
    deviations and the same column of [tildeR_deriv] the derivatives of these with respect to the
    position of the centre; free columns hold 0, except that [list_neigh] may name the site at the
    origin and [tildeR] holds the normalised zero.  If some group is too narrow for some row, an
    assertion fails.  Columns of [rc] and [list_neigh] follow the neighbour elements ([zws]), those
    of [tildeR] and its derivatives the centre elements ([cols] are their groups in that order);
    with the same elements in the same order ([cols = zws]) column k is the same neighbour in all
    four. *)
Theorem C87_arrays : forall (argsort : list R -> list nat) (rnd : R -> Z) (A B C : vec),
  (forall x, (Rabs (x - IZR (rnd x)) <= 1 / 2)%R) -> sorts Rleb argsort -> det A B C <> 0%R ->
  forall (rcut rs : R) (s0 s1 s2 : Z) (sites : list (Z * vec)), positive_odd s0 -> positive_odd s1 -> positive_odd s2 ->
  separated (lattice_image A B C) (map snd sites) -> (0 <= rcut)%R -> (rs < rcut)%R -> sites <> [] ->
  forall (zws cols : list (Z * nat)) (cs : list (Z * (list R * list R))), cs <> [] -> map fst cols = map fst cs -> incl cols zws ->
  NoDup (map fst zws) -> NoDup (map fst cs) -> (forall zw, In zw zws -> fst zw <> 0%Z /\ 0 < snd zw) ->
  (forall ce, In ce cs -> length (fst (snd ce)) = 4 /\ length (snd (snd ce)) = 4) ->
  let run := preprocess argsort rnd A B C rcut rs s0 s1 s2 (map (fun ce => fst (snd ce)) cs) (map (fun ce => snd (snd ce)) cs) (map fst cs) (map fst zws) (map snd zws) true sites in
  exists E atoms centres,
  (forall d, (0 < length_of d)%R -> environment rcut rs d (E d)) /\ copies A B C s0 s1 s2 sites atoms /\
  map (nth_error atoms) centres = map Some (grouped (map fst cs) sites) /\
  (Forall (fits vdist Rleb atoms rcut zws) centres \/
   Exists (fun c => exists zw n, In zw zws /\ number (of_element (fst zw) (near vdist Rleb atoms rcut) c) atoms n /\ snd zw < n) centres) /\
  (Forall (fits vdist Rleb atoms rcut zws) centres -> exists out, run = Ok out /\
    length (rc out) = length centres /\ length (tildeR out) = length centres /\ length (tildeR_deriv out) = length centres /\ length (list_neigh out) = length centres /\
    natoms out = get_natoms vec None sites /\
    forall i c, nth_error centres i = Some c -> exists cen avg std pos env der ind,
      nth_error atoms c = Some cen /\ In (fst cen, (avg, std)) cs /\
      nth_error (rc out) i = Some pos /\ nth_error (tildeR out) i = Some env /\ nth_error (tildeR_deriv out) i = Some der /\ nth_error (list_neigh out) i = Some ind /\
      row_holds A B C sites atoms rcut vdist Rleb zws cols c cen avg std E pos env der ind) /\
  (Exists (fun c => exists zw n, In zw zws /\ number (of_element (fst zw) (near vdist Rleb atoms rcut) c) atoms n /\ snd zw < n) centres -> run = Err AssertionError).
Proof. exact preprocess_all. Qed.
Print Assumptions C87_arrays.

(** If the structure itself lists its sites in that grouped order, row i is site i, so the numbers
    in [list_neigh] are row numbers: a column of row i that is not padding shows the position of
    an image of the site of the named row, relative to site i. *)
Theorem C87_indices_are_rows : forall (argsort : list R -> list nat) (rnd : R -> Z) (A B C : vec),
  (forall x, (Rabs (x - IZR (rnd x)) <= 1 / 2)%R) -> sorts Rleb argsort -> det A B C <> 0%R ->
  forall (rcut rs : R) (s0 s1 s2 : Z) (sites : list (Z * vec)), positive_odd s0 -> positive_odd s1 -> positive_odd s2 ->
  separated (lattice_image A B C) (map snd sites) -> (0 <= rcut)%R -> (rs < rcut)%R -> sites <> [] ->
  forall (zws cols : list (Z * nat)) (cs : list (Z * (list R * list R))), cs <> [] -> map fst cols = map fst cs -> incl cols zws ->
  NoDup (map fst zws) -> NoDup (map fst cs) -> (forall zw, In zw zws -> fst zw <> 0%Z /\ 0 < snd zw) ->
  (forall ce, In ce cs -> length (fst (snd ce)) = 4 /\ length (snd (snd ce)) = 4) ->
  forall out, preprocess argsort rnd A B C rcut rs s0 s1 s2 (map (fun ce => fst (snd ce)) cs) (map (fun ce => snd (snd ce)) cs) (map fst cs) (map fst zws) (map snd zws) true sites = Ok out ->
  sites = grouped (map fst cs) sites ->
  length (rc out) = length sites /\ length (list_neigh out) = length sites /\ length (tildeR out) = length sites /\ length (tildeR_deriv out) = length sites /\
  forall i k s pos ind v n, nth_error sites i = Some s -> nth_error (rc out) i = Some pos -> nth_error (list_neigh out) i = Some ind -> nth_error pos k = Some v -> nth_error ind k = Some n ->
  v = (0, 0, 0)%R \/ exists m s' (p q r : Z), nth_error sites m = Some s' /\ n = m + 1 /\ v = vsub (vadd (snd s') (comb A B C (IZR p) (IZR q) (IZR r))) (snd s).
Proof. exact grouped_rows. Qed.
Print Assumptions C87_indices_are_rows.

(** For such a structure the reported numbers of atoms are the total and then those of the elements
    it contains, in the order of the rows. *)
Theorem C87_natoms : forall (P : Type) (sites : list (Z * P)) zs, NoDup zs -> sites = grouped zs sites ->
  get_natoms P None sites = length sites :: map (fun z => length (filter (fun s => (fst s =? z)%Z) sites)) (filter (present sites) zs).
Proof. exact @grouped_natoms. Qed.
Print Assumptions C87_natoms.

(** Averages or deviations for another number of centre elements, or not four for each, fail an
    assertion, unless the neighbours could not be found in the first place. *)
Theorem C87_statistics : forall argsort rnd A B C rcut rs s0 s1 s2 (davgs dstds : list (list R)) centers nbrs ms mark sites d, d = davgs \/ d = dstds ->
  length d <> length centers \/ Exists (fun r => length r <> 4) d ->
  preprocess argsort rnd A B C rcut rs s0 s1 s2 davgs dstds centers nbrs ms mark sites = Err AssertionError \/
  (exists e, structure_neighbors_v1 argsort A B C sites rcut s0 s1 s2 mark = Err e /\ preprocess argsort rnd A B C rcut rs s0 s1 s2 davgs dstds centers nbrs ms mark sites = Err e).
Proof. exact bad_statistics. Qed.
Print Assumptions C87_statistics.

(** The hypotheses of these theorems can be met, with the elements in different orders.  Oxygen at
    the origin and hydrogen at (1,0,0) with rows O, H and neighbour columns H, O: in the row of the
    oxygen the first column of [rc] and [list_neigh] is the hydrogen, but the first column of
    [tildeR] is padding (here -1, 0, 0, 0, since the averages are 1, 0, 0, 0) and the hydrogen is in
    the second. *)
Theorem C87_columns_differ_refuted : exists E out e n0, (forall d, (0 < length_of d)%R -> environment 2 1 d (E d)) /\
  preprocess (insertion_argsort Rleb) nearest axis_a axis_b axis_c 2 1 1 1 1 [avg1; avg1] [std1; std1] [8; 1]%Z [1; 8]%Z [1; 1] true two_sites = Ok out /\
  nth_error (rc out) 0 = Some [(1, 0, 0)%R; (0, 0, 0)%R] /\ nth_error (list_neigh out) 0 = Some [2; n0] /\
  nth_error (tildeR out) 0 = Some [[-1; 0; 0; 0]%R; e] /\ normalized avg1 std1 (E (1, 0, 0)%R) e.
Proof. exact order_differs. Qed.
Print Assumptions C87_columns_differ_refuted.

(** In general [list_neigh] does not name rows.  The same structure with rows and columns H, O: row 0
    is the hydrogen, its neighbour is the oxygen (row 1), but the number is 1, that is row 0. *)
Theorem C87_rows_not_sites_refuted : exists out n0,
  preprocess (insertion_argsort Rleb) nearest axis_a axis_b axis_c 2 1 1 1 1 [avg1; avg1] [std1; std1] [1; 8]%Z [1; 8]%Z [1; 1] true two_sites = Ok out /\
  nth_error (rc out) 0 = Some [(0, 0, 0)%R; (-1, 0, 0)%R] /\ nth_error (list_neigh out) 0 = Some [n0; 1] /\ nth_error (grouped [1; 8]%Z two_sites) 0 = Some atom_h.
Proof. exact ungrouped. Qed.
Print Assumptions C87_rows_not_sites_refuted.

Example C87_case : two_sites = grouped [8; 1]%Z two_sites /\ get_natoms vec None two_sites = [2; 1; 1].
Proof. repeat split. Qed.
