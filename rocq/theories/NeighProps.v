(** Neighbour tables and what is derived from them: C17, C18, C19, C20, C23.
    The definitions are in [NeighModel] (code) and [NeighSpec] (vocabulary). *)
From Verif Require Import Arr Vec StructModel StructSpec SiteIndexModel SiteIndexSpec NeighModel NeighSpec NeighProofs NeighCounts NeighPair NeighGlue NeighReal.
From Coq Require Import String List.
Open Scope nat_scope.

(** ** C17 *)

(** For any atoms, any distance compared by a total preorder and any sorting function: one row per
    centre, each showing the atoms within the inclusive cutoff, nearest first, padded with zeros to
    the largest number of such atoms. *)
Theorem C17_table :
  forall (P D : Type) (dist : P -> P -> D) (leb : D -> D -> bool) (argsort : list D -> list nat) (zeroP : P) (zeroD : D),
  total_preorder leb -> sorts leb argsort ->
  forall (atoms : list (Z * P)) (centres : list nat) (rcut : D), Forall (fun c => c < length atoms) centres ->
  exists table sels w, key_neighs_info dist leb argsort zeroP zeroD atoms centres rcut = Ok table /\
    Forall2 (neighbours dist leb atoms rcut) centres sels /\ widest sels w /\
    length table = length centres /\ length sels = length centres /\
    forall i c sel row, nth_error centres i = Some c -> nth_error sels i = Some sel -> nth_error table i = Some row ->
    shows_row dist zeroP zeroD atoms w c sel row.
Proof. exact @table_ok. Qed.
Print Assumptions C17_table.

(** For a periodic structure whose sites are not lattice images of each other: the rows are, in the
    order of the sites sorted by element, those of the sites themselves; the first entry of each
    row is the site itself. *)
Theorem C17_structure :
  forall (A B C : vec), det A B C <> 0%R ->
  forall argsort (sites : list (Z * vec)) (rcut : R) s0 s1 s2, sorts Rleb argsort ->
  positive_odd s0 -> positive_odd s1 -> positive_odd s2 -> distinct_sites A B C (map snd sites) -> (0 <= rcut)%R ->
  exists sup idxs table rests w, make_supercell_ vec (translate_R A B C) s0 s1 s2 true sites = Ok sup /\
    structure_neighbors_v1 argsort A B C sites rcut s0 s1 s2 true = Ok table /\
    map (nth_error sup) idxs = map Some (reformat_elements_ vec sites) /\
    length table = length sites /\ length rests = length sites /\
    Forall2 (fun c rest => neighbours vdist Rleb sup rcut c (c :: rest)) idxs rests /\
    widest (map (fun cr => fst cr :: snd cr) (combine idxs rests)) w /\
    forall i c rest row, nth_error idxs i = Some c -> nth_error rests i = Some rest -> nth_error table i = Some row ->
    shows_row (fun p q => SeModel.vnorm (vsub p q)) (0, 0, 0)%R 0%R sup w c (c :: rest) row.
Proof. exact structure_table. Qed.
Print Assumptions C17_structure.

(** If moreover the sites lie in the unit cell and the supercell reaches the cutoff along each
    lattice direction, the selected atoms are exactly the lattice images, in the infinite crystal,
    within the cutoff of the site. *)
Theorem C17_complete :
  forall (A B C : vec), det A B C <> 0%R ->
  forall (sites sup : list (Z * vec)) (rcut : R) s0 s1 s2 (idxs : list nat),
  positive_odd s0 -> positive_odd s1 -> positive_odd s2 -> distinct_sites A B C (map snd sites) -> (0 <= rcut)%R ->
  Forall (fun s => in_cell A B C (snd s)) sites ->
  reaches rcut s0 A B C -> reaches rcut s1 B C A -> reaches rcut s2 C A B ->
  make_supercell_ vec (translate_R A B C) s0 s1 s2 true sites = Ok sup ->
  map (nth_error sup) idxs = map Some (reformat_elements_ vec sites) ->
  forall i c sel s a, nth_error idxs i = Some c -> nth_error (reformat_elements_ vec sites) i = Some s ->
  neighbours vdist Rleb sup rcut c sel ->
  ((exists j, In j sel /\ nth_error sup j = Some a) <->
   (exists m, image_of_site A B C sites a m) /\ (vdist (snd a) (snd s) <= rcut)%R).
Proof. exact structure_complete. Qed.
Print Assumptions C17_complete.

(** A supercell that does not reach the cutoff loses images. *)
Theorem C17_small_supercell_refuted :
  exists sup a, make_supercell_ vec (translate_R axis_a axis_b axis_c) 1 1 1 true one_site = Ok sup /\
  image_of_site axis_a axis_b axis_c one_site a 0 /\ vdist (snd a) (0, 0, 0)%R = 10%R /\ ~ In a sup.
Proof. exact small_supercell_loses. Qed.
Print Assumptions C17_small_supercell_refuted.

(** With [reformat_mark = False] the key indices (always those of the sorted supercell) are applied
    to the unsorted one: a row is centred on an atom that is not a site of the structure. *)
Theorem C17_unsorted_refuted :
  forall argsort (rcut : R), sorts Rleb argsort -> (0 <= rcut)%R ->
  exists table row, structure_neighbors_v1 argsort axis_a axis_b axis_c two_sites rcut 3 1 1 false = Ok table /\
  In row table /\ exists p, hd_error (snd row) = Some p /\ Forall (fun s => snd s <> p) two_sites.
Proof. exact unsorted_centres. Qed.
Print Assumptions C17_unsorted_refuted.

(** Test: cutoff 3 around positions 0 and 10 on a line. *)
Example C17_case_table : key_neighs_info zdist Z.leb (insertion_argsort Z.leb) 0%Z 0%Z line [0; 1] 3%Z =
  Ok [([8; 1; 14; 1]%Z, [0; 2; 2; 3]%Z, [0; 2; -2; 3]%Z); ([8; 0; 0; 0]%Z, [0; 0; 0; 0]%Z, [10; 0; 0; 0]%Z)].
Proof. exact line_table_ok. Qed.
Example C17_case_hypotheses : total_preorder Z.leb /\ sorts Z.leb (insertion_argsort Z.leb) /\ sorts Rleb (insertion_argsort Rleb).
Proof. exact (conj Zleb_total (conj (insertion_sorts Z.leb Zleb_total) (insertion_sorts Rleb Rleb_total))). Qed.
Example C17_case_structure : det axis_a axis_b axis_c = 1000%R /\ distinct_sites axis_a axis_b axis_c (map snd two_sites) /\
  Forall (fun s => in_cell axis_a axis_b axis_c (snd s)) two_sites /\
  reaches 9 3 axis_a axis_b axis_c /\ reaches 9 3 axis_b axis_c axis_a /\ reaches 9 3 axis_c axis_a axis_b.
Proof. exact (conj det_cube (conj (separated_distinct _ _ _ _ two_separated) (conj two_in_cell cube_reaches))). Qed.

(** ** C18 *)

(** The advertised number is the largest number of atoms strictly within the cutoff, minus one (the
    centre itself); the table is as wide as the largest number within the inclusive cutoff; they
    agree exactly when some widest row has no atom on the cutoff. *)
Theorem C18_width_and_count :
  forall (P D : Type) (dist : P -> P -> D) (leb : D -> D -> bool) (argsort : list D -> list nat) (zeroP : P) (zeroD : D),
  total_preorder leb -> sorts leb argsort ->
  forall (atoms : list (Z * P)) (centres : list nat) (rcut : D), Forall (fun c => c < length atoms) centres ->
  exists table m w, key_neighs_info dist leb argsort zeroP zeroD atoms centres rcut = Ok table /\
    max_num_nbrs_real dist leb atoms centres rcut = Ok (Z.of_nat m - 1)%Z /\
    Forall (fun row => length (fst (fst row)) = w /\ length (snd (fst row)) = w /\ length (snd row) = w) table /\
    largest_number (near dist leb atoms rcut) atoms centres w /\
    largest_number (strict_near dist leb atoms rcut) atoms centres m /\
    m <= w /\
    (centres <> [] -> (m = w <-> exists c cen, In c centres /\ nth_error atoms c = Some cen /\
       number (near dist leb atoms rcut c) atoms w /\
       forall j a, nth_error atoms j = Some a -> ~ on_cutoff dist leb (snd cen) rcut a)).
Proof. exact @width_and_count. Qed.
Print Assumptions C18_width_and_count.

(** The same for a periodic structure, with its own supercell and centres. *)
Theorem C18_structure :
  forall (A B C : vec), det A B C <> 0%R ->
  forall argsort (sites : list (Z * vec)) (rcut : R) s0 s1 s2, sorts Rleb argsort ->
  positive_odd s0 -> positive_odd s1 -> positive_odd s2 -> distinct_sites A B C (map snd sites) -> (0 <= rcut)%R ->
  exists sup idxs table m w, make_supercell_ vec (translate_R A B C) s0 s1 s2 true sites = Ok sup /\
    map (nth_error sup) idxs = map Some (reformat_elements_ vec sites) /\
    structure_neighbors_v1 argsort A B C sites rcut s0 s1 s2 true = Ok table /\
    structure_max_nbrs A B C sites rcut s0 s1 s2 = Ok (Z.of_nat m - 1)%Z /\
    Forall (fun row => length (fst (fst row)) = w /\ length (snd (fst row)) = w /\ length (snd row) = w) table /\
    largest_number (near vdist Rleb sup rcut) sup idxs w /\ largest_number (strict_near vdist Rleb sup rcut) sup idxs m /\ m <= w.
Proof. exact structure_counts. Qed.
Print Assumptions C18_structure.

(** The per-element numbers: for each listed element the largest number of other atoms of that
    element strictly within the cutoff. *)
Theorem C18_per_element :
  forall (P D : Type) (dist : P -> P -> D) (leb : D -> D -> bool) (origin : P) (an : string -> result Z)
    (atoms : list (Z * P)) (centres : list nat) (rcut : D) (elements : list string),
  Forall (fun c => c < length atoms) centres -> (forall e, In e elements -> exists z, an e = Ok z) ->
  exists d, max_num_nbrs_real_element dist leb an atoms centres rcut elements = Ok d /\
    forall e z, In e elements -> an e = Ok z ->
    exists m, lookup d e = Ok m /\ largest_number (of_element z (strict_near dist leb atoms rcut)) atoms centres m.
Proof. exact @max_element_ok. Qed.
Print Assumptions C18_per_element.

(** A name that is not an element makes the query fail. *)
Theorem C18_unknown_element :
  forall (P D : Type) (dist : P -> P -> D) (leb : D -> D -> bool) (origin : P) (an : string -> result Z)
    (atoms : list (Z * P)) (c : nat) (centres : list nat) (rcut : D) (elements : list string) (e : string) (ex : exn),
  c < length atoms -> In e elements -> an e = Err ex -> (forall x y, an x = Err y -> y = ex) ->
  max_num_nbrs_real_element dist leb an atoms (c :: centres) rcut elements = Err ex.
Proof. exact @max_element_unknown. Qed.
Print Assumptions C18_unknown_element.

(** The two differ: with cutoff 3 the table is 4 wide (3 neighbours), 2 are advertised. *)
Theorem C18_count_refuted :
  exists table, key_neighs_info zdist Z.leb (insertion_argsort Z.leb) 0%Z 0%Z line [0; 1] 3%Z = Ok table /\
  Forall (fun row => length (snd row) = 4) table /\ max_num_nbrs_real zdist Z.leb line [0; 1] 3%Z = Ok 2%Z.
Proof. exists line_table. repeat split; repeat constructor. Qed.
Print Assumptions C18_count_refuted.

Definition toy_numbers (e : string) : result Z :=
  if String.eqb e "H"%string then Ok 1%Z else if String.eqb e "O"%string then Ok 8%Z else Err KeyError.
Example C18_case_element :
  max_num_nbrs_real_element zdist Z.leb toy_numbers line [0; 1] 11%Z ["O"%string; "H"%string] = Ok [("O"%string, 1); ("H"%string, 2)].
Proof. reflexivity. Qed.

(** ** C19 *)

(** For a periodic structure without two sites that are lattice images of each other up to 1e-10,
    and a row width that suffices: the row of each centre of the first element starts with the
    1-based indices of the sites of which its neighbours of the second element are images, nearest
    first; the remaining columns up to the largest number of such neighbours hold the index
    computed for the origin, and 0 after that.  A smaller width raises ValueError. *)
Theorem C19_indices :
  forall (A B C : vec), det A B C <> 0%R ->
  forall (rnd : R -> Z), (forall x, (Rabs (x - IZR (rnd x)) <= 1 / 2)%R) ->
  forall argsort (sites : list (Z * vec)) (rcut : R) s0 s1 s2 (center nbr : Z) (m : nat), sorts Rleb argsort ->
  positive_odd s0 -> positive_odd s1 -> positive_odd s2 -> separated (lattice_image A B C) (map snd sites) -> (0 <= rcut)%R ->
  sites <> [] -> nbr <> 0%Z -> 0 < m ->
  exists sup idxs table sels real, make_supercell_ vec (translate_R A B C) s0 s1 s2 true sites = Ok sup /\
    map (nth_error sup) idxs = map Some (reformat_elements_ vec sites) /\
    structure_neighbors_v1 argsort A B C sites rcut s0 s1 s2 true = Ok table /\
    Forall2 (pair_neighbours vdist Rleb sup rcut nbr) (centres_of sup center idxs) sels /\ widest sels real /\
    (real <= m -> exists rows, _get_nbrs_indices vzero (get_site_index rnd A B C (map snd sites)) table center nbr (Some m) = Ok rows /\
      Forall2 (fun sel row => exists vals,
        Forall2 (fun j v => exists a i, nth_error sup j = Some a /\ image_of_site A B C sites a i /\ v = i + 1) sel vals /\
        row = vals ++ repeat (get_site_index rnd A B C (map snd sites) vzero) (real - length sel) ++ repeat 0 (m - real)) sels rows) /\
    (m < real -> _get_nbrs_indices vzero (get_site_index rnd A B C (map snd sites)) table center nbr (Some m) = Err ValueError).
Proof. exact structure_indices. Qed.
Print Assumptions C19_indices.

(** The index written into padding columns is 0 exactly when no site is a lattice image of the
    origin; otherwise it is the 1-based index of the first such site. *)
Theorem C19_padding :
  forall (A B C : vec), det A B C <> 0%R ->
  forall (rnd : R -> Z), (forall x, (Rabs (x - IZR (rnd x)) <= 1 / 2)%R) ->
  forall (positions : list vec),
  (get_site_index rnd A B C positions vzero = 0 <-> Forall (fun c => ~ lattice_image A B C c vzero) positions) /\
  (forall i c, nth_error positions i = Some c -> lattice_image A B C c vzero ->
    (forall m c', m < i -> nth_error positions m = Some c' -> ~ lattice_image A B C c' vzero) ->
    get_site_index rnd A B C positions vzero = i + 1).
Proof. exact padding_index. Qed.
Print Assumptions C19_padding.

(** All element pairs at once: the rows of the centres of each listed element in turn, each the
    concatenation of its parts for the listed neighbour elements. *)
Theorem C19_all_pairs :
  forall (P D : Type) (dist : P -> P -> D) (leb : D -> D -> bool) (argsort : list D -> list nat) (zeroP : P) (zeroD : D),
  total_preorder leb -> sorts leb argsort ->
  forall (atoms : list (Z * P)) (centres : list nat) (rcut : D) (index : P -> nat),
  Forall (isolated dist leb atoms rcut) centres -> centres <> [] ->
  forall table, key_neighs_info dist leb argsort zeroP zeroD atoms centres rcut = Ok table ->
  forall (elements : list Z) (zw : Z * nat) (zws : list (Z * nat)), elements <> [] ->
  Forall (fun x => fst x <> 0%Z /\ 0 < snd x /\
    forall c sel, In c centres -> pair_neighbours dist leb atoms rcut (fst x) c sel -> length sel <= snd x) (zw :: zws) ->
  exists rows, get_nbrs_indices zeroP index table elements (map fst (zw :: zws)) (Some (map snd (zw :: zws))) = Ok rows /\
    Forall2 (fun c row => exists parts, Forall2 (index_row dist leb atoms rcut index (index zeroP) c) (zw :: zws) parts /\ row = concat parts)
      (flat_map (fun z => centres_of atoms z centres) elements) rows.
Proof. exact @all_pairs. Qed.
Print Assumptions C19_all_pairs.

(** The default argument [max_num_nbrs=False] never works (it is indexed as a list). *)
Theorem C19_default_refuted :
  exists table, key_neighs_info zdist Z.leb (insertion_argsort Z.leb) 0%Z 0%Z line [0; 1] 3%Z = Ok table /\
  get_nbrs_indices 0%Z (fun _ => 0) table [8%Z] [1%Z] None = Err TypeError.
Proof. exact (ex_intro _ _ (conj eq_refl eq_refl)). Qed.
Print Assumptions C19_default_refuted.

(** The arguments that are rejected: no centre element or no neighbour element (ValueError), no
    widths (TypeError), too few widths or an empty table (IndexError), and an element without
    centres if some width is 0 (ValueError). *)
Theorem C19_rejected :
  forall (P D : Type) (zeroP : P) (index : P -> nat) (table : list (list Z * list D * list P)) centers nbrs,
  (forall o, centers = [] -> get_nbrs_indices zeroP index table centers nbrs o = Err ValueError) /\
  (forall o, centers <> [] -> nbrs = [] -> get_nbrs_indices zeroP index table centers nbrs o = Err ValueError) /\
  (centers <> [] -> nbrs <> [] -> get_nbrs_indices zeroP index table centers nbrs None = Err TypeError) /\
  (forall ws, centers <> [] -> nbrs <> [] -> table = [] \/ ws = [] -> get_nbrs_indices zeroP index table centers nbrs (Some ws) = Err IndexError) /\
  (forall c rest ws, centers = c :: rest -> table <> [] -> Forall (fun r => exists z zs, fst (fst r) = z :: zs /\ z <> c) table ->
    length ws = length nbrs -> In 0 ws -> get_nbrs_indices zeroP index table centers nbrs (Some ws) = Err ValueError).
Proof. exact @nbrs_rejected. Qed.
Print Assumptions C19_rejected.
(** With width 0 (no padding) elements whose widest rows differ cannot be combined. *)
Theorem C19_unpadded_refuted :
  exists table rows rows', key_neighs_info zdist Z.leb (insertion_argsort Z.leb) 0%Z 0%Z line [0; 2] 3%Z = Ok table /\
  get_nbrs_indices 0%Z (fun _ => 0) table [8%Z] [1%Z] (Some [0]) = Ok rows /\ get_nbrs_indices 0%Z (fun _ => 0) table [1%Z] [1%Z] (Some [0]) = Ok rows' /\
  get_nbrs_indices 0%Z (fun _ => 0) table [8%Z; 1%Z] [1%Z] (Some [0]) = Err ValueError.
Proof. do 3 eexists. split; [reflexivity|]. split; [reflexivity|]. split; reflexivity. Qed.
Print Assumptions C19_unpadded_refuted.

Example C19_case_hypotheses : separated (lattice_image axis_a axis_b axis_c) (map snd two_sites).
Proof. exact two_separated. Qed.
(** Test: the second centre has no hydrogen neighbours; if the origin is taken for site 7, two
    phantom neighbours appear in its row. *)
Example C19_case_phantom : exists table, key_neighs_info zdist Z.leb (insertion_argsort Z.leb) 0%Z 0%Z line [0; 1] 3%Z = Ok table /\
  _get_nbrs_indices 0%Z (fun p => if (p =? 0)%Z then 7 else Z.to_nat p) table 8%Z 1%Z (Some 3) = Ok [[2; 3; 0]; [7; 7; 0]].
Proof. exact (ex_intro _ _ (conj eq_refl eq_refl)). Qed.
Example C19_case_isolated : Forall (isolated zdist Z.leb line 10%Z) [0; 1].
Proof. exact line_isolated. Qed.

(** ** C21 *)

(** An atom whose distance from a centre equals the cutoff is in the row of that centre. *)
Theorem C21_on_cutoff_kept :
  forall (P D : Type) (dist : P -> P -> D) (leb : D -> D -> bool) (argsort : list D -> list nat) (zeroP : P) (zeroD : D),
  total_preorder leb -> sorts leb argsort ->
  forall (atoms : list (Z * P)) (centres : list nat) (rcut : D) table, Forall (fun c => c < length atoms) centres ->
  key_neighs_info dist leb argsort zeroP zeroD atoms centres rcut = Ok table ->
  forall i c cen row j a, nth_error centres i = Some c -> nth_error atoms c = Some cen -> nth_error table i = Some row ->
  nth_error atoms j = Some a -> on_cutoff dist leb (snd cen) rcut a ->
  exists k, nth_error (fst (fst row)) k = Some (fst a) /\ nth_error (snd (fst row)) k = Some (dist (snd a) (snd cen)) /\ nth_error (snd row) k = Some (snd a).
Proof. exact on_cutoff_in_table. Qed.
Print Assumptions C21_on_cutoff_kept.

Example C21_on_cutoff_case : key_neighs_info zdist Z.leb (insertion_argsort Z.leb) 0%Z 0%Z line [0; 1] 3%Z = Ok line_table /\
  on_cutoff zdist Z.leb 0%Z 3%Z (1, 3)%Z /\ nth_error line 2 = Some (1, 3)%Z.
Proof. exact (conj line_table_ok (conj (conj eq_refl eq_refl) eq_refl)). Qed.

(** ** C20 *)

Theorem C20_create :
  forall (h : list (string * option nat)) (name : string),
  (forall c, last_registered h name (Some c) -> create (registered h) name = Ok c) /\
  (last_registered h name None -> create (registered h) name = Err ValueError) /\
  ((forall v, ~ last_registered h name v) -> create (registered h) name = Err KeyError).
Proof. exact create_registered. Qed.
Print Assumptions C20_create.

(** The decorator returns nothing: calling the decorated name fails after any history, and
    registering it under another name registers an unusable entry. *)
Theorem C20_name_unusable :
  forall (h : list (string * option nat)) (name other : string) (c : nat),
  let (r, bound) := register (registered h) name (Some c) in
  call bound = Err TypeError /\ create r name = Ok c /\
  create (fst (register r other bound)) other = Err ValueError.
Proof. exact decorated_name_unusable. Qed.
Print Assumptions C20_name_unusable.

Example C20_case : create (registered [("v1"%string, Some 1); ("v2"%string, Some 2); ("v1"%string, Some 3)]) "v1"%string = Ok 3 /\
  create (registered [("v1"%string, Some 1)]) "v3"%string = Err KeyError.
Proof. exact (conj eq_refl eq_refl). Qed.

(** ** C23 *)

(** Extracting an element pair: atomic numbers, distances and relative coordinates of exactly the
    neighbours of the second element, for exactly the centres of the first element, in order,
    padded with zeros to the largest number of them. *)
Theorem C23_extract :
  forall (P D : Type) (dist : P -> P -> D) (leb : D -> D -> bool) (argsort : list D -> list nat) (zeroP : P) (zeroD : D),
  total_preorder leb -> sorts leb argsort ->
  forall (sub : P -> P -> P) (atoms : list (Z * P)) (centres : list nat) (rcut : D) (center nbr : Z),
  Forall (isolated dist leb atoms rcut) centres -> centres <> [] -> nbr <> 0%Z ->
  exists table sels real, key_neighs_info dist leb argsort zeroP zeroD atoms centres rcut = Ok table /\
    Forall2 (pair_neighbours dist leb atoms rcut nbr) (centres_of atoms center centres) sels /\ widest sels real /\
    exists ans ds rcs, extract_feature_pair zeroP zeroD sub table center nbr = Ok (real, (ans, ds, rcs)) /\
     length ans = length sels /\ length ds = length sels /\ length rcs = length sels /\
     forall i c sel, nth_error (centres_of atoms center centres) i = Some c -> nth_error sels i = Some sel ->
     exists cen a d rc, nth_error atoms c = Some cen /\ nth_error ans i = Some a /\ nth_error ds i = Some d /\ nth_error rcs i = Some rc /\
       shows fst 0%Z real atoms sel a /\ shows (fun a => dist (snd a) (snd cen)) zeroD real atoms sel d /\
       shows (fun a => sub (snd a) (snd cen)) zeroP real atoms sel rc.
Proof. exact @extract_pair. Qed.
Print Assumptions C23_extract.

(** Padding to a requested width succeeds exactly when the width suffices. *)
Theorem C23_expand :
  forall (P D : Type) (dist : P -> P -> D) (leb : D -> D -> bool) (argsort : list D -> list nat) (zeroP : P) (zeroD : D),
  total_preorder leb -> sorts leb argsort ->
  forall (sub : P -> P -> P) (atoms : list (Z * P)) (centres : list nat) (rcut : D) (center nbr : Z),
  Forall (isolated dist leb atoms rcut) centres -> centres <> [] -> nbr <> 0%Z -> forall m,
  exists table sels real, key_neighs_info dist leb argsort zeroP zeroD atoms centres rcut = Ok table /\
    Forall2 (pair_neighbours dist leb atoms rcut nbr) (centres_of atoms center centres) sels /\ widest sels real /\
    (real <= m -> exists rows, expand_rc zeroP zeroD sub table center nbr m = Ok rows /\ length rows = length sels /\
      forall i c sel, nth_error (centres_of atoms center centres) i = Some c -> nth_error sels i = Some sel ->
      exists cen row, nth_error atoms c = Some cen /\ nth_error rows i = Some row /\
        shows (fun a => sub (snd a) (snd cen)) zeroP m atoms sel row) /\
    (m < real -> expand_rc zeroP zeroD sub table center nbr m = Err AssertionError).
Proof. exact @expand_all. Qed.
Print Assumptions C23_expand.

(** The advertised number for the element is a sufficient width when no atom sits on the cutoff. *)
Theorem C23_advertised_width :
  forall (P D : Type) (dist : P -> P -> D) (leb : D -> D -> bool) (argsort : list D -> list nat) (zeroP : P) (zeroD : D),
  total_preorder leb -> sorts leb argsort ->
  forall (sub : P -> P -> P) (atoms : list (Z * P)) (centres : list nat) (rcut : D) (center nbr : Z),
  Forall (isolated dist leb atoms rcut) centres -> centres <> [] -> nbr <> 0%Z ->
  forall (an : string -> result Z) e elements d m, an e = Ok nbr -> In e elements ->
  (forall x, In x elements -> exists z, an x = Ok z) ->
  max_num_nbrs_real_element dist leb an atoms centres rcut elements = Ok d -> lookup d e = Ok m ->
  (forall c cen j a, In c centres -> nth_error atoms c = Some cen -> nth_error atoms j = Some a -> ~ on_cutoff dist leb (snd cen) rcut a) ->
  exists table rows, key_neighs_info dist leb argsort zeroP zeroD atoms centres rcut = Ok table /\ expand_rc zeroP zeroD sub table center nbr m = Ok rows.
Proof. exact @advertised_width. Qed.
Print Assumptions C23_advertised_width.

(** With an atom on the cutoff the advertised width is too small and extraction fails. *)
Theorem C23_advertised_width_refuted :
  exists table d m, key_neighs_info zdist Z.leb (insertion_argsort Z.leb) 0%Z 0%Z line [0; 1] 3%Z = Ok table /\
  max_num_nbrs_real_element zdist Z.leb toy_numbers line [0; 1] 3%Z ["H"%string] = Ok d /\ lookup d "H"%string = Ok m /\
  expand_rc 0%Z 0%Z Z.sub table 8%Z 1%Z m = Err AssertionError.
Proof. exact (ex_intro _ _ (ex_intro _ _ (ex_intro _ _ (conj eq_refl (conj eq_refl (conj eq_refl eq_refl)))))). Qed.
Print Assumptions C23_advertised_width_refuted.

Example C23_case : exists table, key_neighs_info zdist Z.leb (insertion_argsort Z.leb) 0%Z 0%Z line [0; 1] 10%Z = Ok table /\
  expand_rc 0%Z 0%Z Z.sub table 8%Z 1%Z 3 = Ok [[2; 3; 0]; [-7; -8; 0]]%Z.
Proof. exact (ex_intro _ _ (conj eq_refl eq_refl)). Qed.
