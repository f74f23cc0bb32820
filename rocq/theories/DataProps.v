(** Data sets on disk: C25, C26, C27, C28, C29, C64.
    The definitions are in [DataModel] (code) and [DataSpec] (vocabulary). *)
From Coq Require Import String List Permutation.
From Verif Require Import Base ElementModel DataModel DataSpec DataText DataProofs DataParts DataMerge DataGroups DataSlices DataNames DataCases.

(** ** C25 *)

(** A collection of n frames saved in sets of s, whatever the directory was before: the sets are
    numbered 000, 001, ..., there are ceil(n / s) of them, and each array holds the frames in
    order, s per set except possibly the last, which is not empty.  Virials and atomic energies
    are written for all sets, or for none if all are zero. *)
Theorem C25_saved :
  forall (F : Type) (nonzero : F -> bool) (structs : list struct) (tot pot kin : list F) vir c (old : option (list entry)) (s : nat),
  make structs tot pot kin vir = Ok c -> consistent structs tot vir -> 0 < s ->
  exists dir k, to nonzero old c (Z.of_nat s) = (dir, Ok tt) /\
  length structs <= s * k < length structs + s /\
  map fst (set_dirs dir) = map (fun i => "set." ++ pad3 i)%string (seq 0 k) /\ NoDup (map fst (set_dirs dir)) /\
  holds (set_dirs dir) "cell.npy" (map st_box structs) s /\
  holds (set_dirs dir) "atom_coord.npy" (map (fun x => concat (st_coords x)) structs) s /\
  holds (set_dirs dir) "atom_force.npy" (map (fun x => concat (st_forces x)) structs) s /\
  holds (set_dirs dir) "tot_energy.npy" (map (fun e => [e]) tot) s /\
  (if existsb (existsb nonzero) vir then holds (set_dirs dir) "virial.npy" vir s else lacks (set_dirs dir) "virial.npy") /\
  (if existsb (existsb nonzero) (map st_energies structs) then holds (set_dirs dir) "atom_energy.npy" (map st_energies structs) s
   else lacks (set_dirs dir) "atom_energy.npy").
Proof. exact (@saved). Qed.
Print Assumptions C25_saved.

(** Set size 0: the exception comes after the old directory is gone and the two type files are
    written, before any set. *)
Theorem C25_zero :
  forall (F : Type) (nonzero : F -> bool) (structs : list struct) (tot pot kin : list F) vir c (old : option (list entry)),
  make structs tot pot kin vir = Ok c -> consistent structs tot vir ->
  exists a b, to nonzero old c 0 = ([Text "type_map.raw" a; Text "type.raw" b], Err ZeroDivisionError)%string.
Proof. exact (@zero_size). Qed.
Print Assumptions C25_zero.

(** The numbers in the names of sets (and parts, C26) have three digits. *)
Theorem C25_names : forall n, n < 1000 -> pad3 n = three_digits n.
Proof. exact pad3_digits. Qed.
Print Assumptions C25_names.

(** A negative set size: no exception and no set. *)
Theorem C25_negative :
  forall (F : Type) (nonzero : F -> bool) (structs : list struct) (tot pot kin : list F) vir c (old : option (list entry)) s,
  make structs tot pot kin vir = Ok c -> consistent structs tot vir -> (s < 0)%Z ->
  exists a b, to nonzero old c s = ([Text "type_map.raw" a; Text "type.raw" b], Ok tt)%string.
Proof. exact (@negative_size). Qed.
Print Assumptions C25_negative.

(** Structures of different sizes cannot be saved: ValueError, and no set is written. *)
Theorem C25_mixed_sizes :
  forall (F : Type) (nonzero : F -> bool) (structs : list struct) (tot pot kin : list F) vir c (old : option (list entry)) s,
  make structs tot pot kin vir = Ok c -> equal_lengths (map st_box structs) -> ~ equal_lengths (map (fun x => concat (st_coords x)) structs) ->
  snd (to nonzero old c s) = Err ValueError /\ set_dirs (fst (to nonzero old c s)) = [].
Proof. exact (@mixed_sizes). Qed.
Print Assumptions C25_mixed_sizes.

(** Three frames in sets of two. *)
Example C25_case : exists c, three 3 14 = Ok c /\
  saved_sets (to nz None c 2) = [("set.000", Some [[10]; [20]]); ("set.001", Some [[30]])]%string%Z.
Proof. exact three_saved. Qed.
Example C25_case_consistent :
  consistent [frame 3 14 1; frame 3 14 2; frame 3 14 3] [10; 20; 30]%Z [[1]; [2]; [3]]%Z.
Proof. exact three_consistent. Qed.

(** ** C26 *)

(** n frames in parts of p, in a directory where the formula is new: one subdirectory is added;
    its parts are numbered 000, 001, ..., there are ceil(n / p), and every array present is held
    in order, p rows per part except possibly the last, which is not empty. *)
Theorem C26_parts :
  forall (F : Type) dir (s : @infoset F) (p : nat), whole s -> 0 < p -> ~ In (is_formula s) (map fd_name dir) ->
  exists parts k, to_dir dir s (Some (Z.of_nat p)) = (dir ++ [mkDir (is_formula s) (each_line (map fst (is_dict s))) parts], Ok tt) /\
  holds_set parts s p /\ is_frames s <= p * k < is_frames s + p /\ map fst parts = map part_name (seq 0 k) /\ NoDup (map fst parts).
Proof. exact (@parts_saved). Qed.
Print Assumptions C26_parts.

(** Without a part size: everything in one part. *)
Theorem C26_whole :
  forall (F : Type) dir (s : @infoset F), whole s -> ~ In (is_formula s) (map fd_name dir) ->
  exists parts, to_dir dir s None = (dir ++ [mkDir (is_formula s) (each_line (map fst (is_dict s))) parts], Ok tt) /\
  holds_set parts s (is_frames s) /\ map fst parts = (if is_frames s =? 0 then [] else [part_name 0]).
Proof. exact (@parts_one). Qed.
Print Assumptions C26_whole.

(** Part size 0, or a formula already present: an exception and nothing is written. *)
Theorem C26_zero :
  forall (F : Type) dir (s : @infoset F), to_dir dir s (Some 0%Z) = (dir, Err ZeroDivisionError).
Proof. exact (@parts_zero). Qed.
Print Assumptions C26_zero.

Theorem C26_exists :
  forall (F : Type) dir (s : @infoset F) o, o <> Some 0%Z -> In (is_formula s) (map fd_name dir) -> to_dir dir s o = (dir, Err FileExistsError).
Proof. exact (@parts_exist). Qed.
Print Assumptions C26_exists.

(** A negative part size: all frames in one part if its magnitude exceeds their number,
    otherwise no frame is written and no exception raised. *)
Theorem C26_negative :
  forall (F : Type) dir (s : @infoset F) (p : Z), whole s -> (p < 0)%Z -> ~ In (is_formula s) (map fd_name dir) ->
  exists parts, to_dir dir s (Some p) = (dir ++ [mkDir (is_formula s) (each_line (map fst (is_dict s))) parts], Ok tt) /\
  (if (Z.of_nat (is_frames s) <? - p)%Z then holds_set parts s (is_frames s) else parts = []).
Proof. exact (@parts_negative). Qed.
Print Assumptions C26_negative.

(** Five frames in parts of two. *)
Example C26_case : whole five /\
  map (fun d => map (fun p => (fst p, file "etot.npy" (snd p))) (fd_parts d)) (fst (to_dir [] five (Some 2%Z))) =
  [[("part.000", Some (Nums [[1]; [2]])); ("part.001", Some (Nums [[3]; [4]])); ("part.002", Some (Nums [[5]]))]]%string%Z.
Proof. exact (conj five_whole five_parts). Qed.

(** ** C27 *)

(** Two files belong together exactly if their first frames have equally many atoms of every
    element. *)
Theorem C27_together :
  forall (F : Type) (an : F -> Z) (m m' : raw), same_composition an m m' = true <->
  forall a, length (filter (Z.eqb a) (head_numbers an m)) = length (filter (Z.eqb a) (head_numbers an m')).
Proof. exact (@comp_iff). Qed.
Print Assumptions C27_together.

(** For every list of files: one set per composition, in order of first appearance, holding the
    frames of all its files in file order, with optional data only if all its files have them;
    the sets have different formulas, every file is in one of them, and the number of frames is
    the sum over the files. *)
Theorem C27_merged :
  forall (F : Type) (an : F -> Z) (files : list raw), (forall m, In m files -> shaped m /\ closed an m) ->
  exists out keys, from_dir an files = Ok out /\
  Forall2 (fun rep s => contains_files an keys (filter (same_composition an rep) files) s) (distinct (same_composition an) files) out /\
  Forall (fun s => map fst (is_dict s) = keys /\ whole s) out /\
  NoDup (map is_formula out) /\ NoDup keys /\
  Permutation (concat (map (fun rep => filter (same_composition an rep) files) (distinct (same_composition an) files))) files /\
  get_num_frames out = list_sum (map frames files).
Proof. exact (@merged_groups). Qed.
Print Assumptions C27_merged.

(** The atom counts recorded with a set are those of its file if it comes from one file only,
    otherwise those of the last file read. *)
Theorem C27_counts :
  forall (F : Type) (an : F -> Z) (files : list raw), (forall m, In m files -> shaped m /\ closed an m) ->
  exists out keys, from_dir an files = Ok out /\
  Forall2 (fun rep s => exists m, (filter (same_composition an rep) files = [m] \/
      length (filter (same_composition an rep) files) <> 1 /\ exists r, files = r ++ [m]) /\
    Forall2 (fun k p => fst p = k /\ exists a, symbol_of a = Ok k /\ snd p = length (filter (Z.eqb a) (head_numbers an m))) keys (is_dict s))
    (distinct (same_composition an) files) out.
Proof. exact (@merged_counts). Qed.
Print Assumptions C27_counts.

(** So the counts can contradict the formula: a set named H2O0 is recorded with no H and one O. *)
Theorem C27_counts_refuted :
  exists files out s, (forall m, In m files -> shaped m /\ closed id_an m) /\ from_dir id_an files = Ok out /\ In s out /\
  is_formula s = "H2O0"%string /\ is_dict s = [("H", 0); ("O", 1)]%string.
Proof. exact counts_wrong. Qed.
Print Assumptions C27_counts_refuted.

(** Merged sets can always be saved into an empty directory, and nothing is lost. *)
Theorem C27_saved :
  forall (F : Type) (an : F -> Z) (files : list raw) (o : option nat), (forall m, In m files -> shaped m /\ closed an m) -> o <> Some 0 -> files <> [] ->
  exists out dirs p, from_dir an files = Ok out /\ p = match o with Some p => p | None => list_sum (map frames files) end /\
  sets_to_dir [] out (option_map Z.of_nat o) = (dirs, Ok tt) /\
  Forall2 (fun s d => fd_name d = is_formula s /\ fd_types d = each_line (map fst (is_dict s)) /\ holds_set (fd_parts d) s p) out dirs.
Proof. exact (@save_merged). Qed.
Print Assumptions C27_saved.

(** Two files with H2, the second of two frames, and one with O. *)
Example C27_case : (forall m, In m sample -> shaped m /\ closed id_an m) /\
  match from_dir id_an sample with
  | Ok out => map (fun s => (is_formula s, is_etot s, is_types s, is_frames s, is_dict s)) out =
     [("H2O0", [[5]; [6]; [7]]%Z, [[0; 0]; [0; 0]; [0; 0]], 3, [("H", 0); ("O", 1)]); ("H0O1", [[7]]%Z, [[1]], 1, [("H", 0); ("O", 1)])]%string
  | Err _ => False end.
Proof. exact (conj sample_ok sample_merged). Qed.

(** ** C28 *)

(** One list of element names serves all merged sets: the type index of every atom of every frame
    points to that atom's element. *)
Theorem C28_indices :
  forall (F : Type) (an : F -> Z) (files : list raw), (forall m, In m files -> shaped m /\ closed an m) ->
  exists out keys, from_dir an files = Ok out /\ NoDup keys /\
  Forall2 (fun rep s => map fst (is_dict s) = keys /\
    Forall2 (Forall2 (fun i a => exists k, nth_error keys i = Some k /\ symbol_of a = Ok k))
      (is_types s) (concat (map (numbers an) (filter (same_composition an rep) files))))
    (distinct (same_composition an) files) out.
Proof. exact (@merged_types). Qed.
Print Assumptions C28_indices.

(** An element that a file shows only after its first frame makes the whole directory fail. *)
Theorem C28_late_element_fails :
  forall (F : Type) (an : F -> Z) (files : list raw), (forall m, In m files -> shaped m /\ Forall known (head_numbers an m)) ->
  Exists (fun m => ~ closed an m) files -> from_dir an files = Err ValueError.
Proof. exact (@open_file). Qed.
Print Assumptions C28_late_element_fails.

Example C28_case_late : from_dir id_an [h2 5; late_o] = Err ValueError.
Proof. exact late_fails. Qed.

(** ** C29 *)

(** Indices from -n to n - 1, in any order and with repetitions: the selected collection has, in
    that order, the structures and energies the indices refer to.  The virials are selected too
    if there are enough of them; otherwise all of them are replaced by ten zeros. *)
Theorem C29_selected :
  forall (F : Type) (zero : F) (structs : list struct) (tot pot kin : list F) vir c is, make structs tot pot kin vir = Ok c ->
  length tot = length structs -> length pot = length structs -> length kin = length structs ->
  is <> [] -> Forall (fun i => -Z.of_nat (length structs) <= i < Z.of_nat (length structs))%Z is ->
  exists c', from_indices zero c is = Selected c' /\ length (co_structs c') = length is /\ Forall2 (refers structs) is (co_structs c') /\
  Forall2 (refers tot) is (co_total c') /\ Forall2 (refers pot) is (co_potential c') /\ Forall2 (refers kin) is (co_kinetic c') /\
  (if forallb (fun i => ((-Z.of_nat (length vir) <=? i) && (i <? Z.of_nat (length vir)))%Z) is then Forall2 (refers vir) is (co_virial c')
   else co_virial c' = repeat [zero] 10).
Proof. exact (@selected). Qed.
Print Assumptions C29_selected.

(** The built-in guard fires exactly if some index exceeds the number of frames. *)
Theorem C29_guard :
  forall (F : Type) (zero : F) (c : @coll F) is,
  from_indices zero c is = Guarded <-> Exists (fun i => Z.of_nat (length (co_structs c)) < i)%Z is.
Proof. exact (@guarded). Qed.
Print Assumptions C29_guard.

(** Past the guard: an index equal to the number of frames, or below minus that number. *)
Theorem C29_unguarded :
  forall (F : Type) (zero : F) (c : @coll F) is, is <> [] -> Forall (fun i => i <= Z.of_nat (length (co_structs c)))%Z is ->
  Exists (fun i => i = Z.of_nat (length (co_structs c)) \/ i < -Z.of_nat (length (co_structs c)))%Z is -> from_indices zero c is = Raised IndexError.
Proof. exact (@unguarded). Qed.
Print Assumptions C29_unguarded.

(** An empty list of indices: ValueError. *)
Theorem C29_empty : forall (F : Type) (zero : F) (c : @coll F), from_indices zero c [] = Raised ValueError.
Proof. exact (@empty_selection). Qed.
Print Assumptions C29_empty.

(** A slice [a:b], with bounds of either sign: the structures, energies and virials between the two
    bounds; if it has no structure, IndexError. *)
Theorem C29_slice :
  forall (F : Type) (c : @coll F) a b,
  (forall c', getitem c a b = Ok c' -> sliced a b (co_structs c) (co_structs c') /\ sliced a b (co_total c) (co_total c') /\
    sliced a b (co_potential c) (co_potential c') /\ sliced a b (co_kinetic c) (co_kinetic c') /\ sliced a b (co_virial c) (co_virial c')) /\
  (sliced a b (co_structs c) [] -> getitem c a b = Err IndexError) /\ (~ sliced a b (co_structs c) [] -> exists c', getitem c a b = Ok c').
Proof. exact (@getitem_sliced). Qed.
Print Assumptions C29_slice.
Example C29_slice_case : exists c c', three 3 14 = Ok c /\ getitem c (-2) 7 = Ok c' /\ co_total c' = [20; 30]%Z /\ getitem c 2 (-2) = Err IndexError.
Proof. eexists _, _. split; [reflexivity|]. split; [reflexivity|]. split; reflexivity. Qed.

(** A collection whose virials, taken together, cannot be split evenly over its frames cannot be saved. *)
Theorem C29_uneven_virials :
  forall (F : Type) (nonzero : F -> bool) (structs : list struct) (tot pot kin : list F) vir c old s, make structs tot pot kin vir = Ok c ->
  length tot = length structs -> equal_lengths (map st_box structs) -> equal_lengths (map (fun x => concat (st_coords x)) structs) ->
  equal_lengths (map (fun x => concat (st_forces x)) structs) ->
  length (concat vir) mod length structs <> 0 -> snd (to nonzero old c s) = Err ValueError /\ set_dirs (fst (to nonzero old c s)) = [].
Proof. exact (@bad_virial). Qed.
Print Assumptions C29_uneven_virials.

(** So a collection without virials that can be saved may have a selection of frames that cannot. *)
Theorem C29_selection_saved_refuted :
  exists c c', three_no_virial = Ok c /\ from_indices 0%Z c [2; 0; -2]%Z = Selected c' /\
  map st_box (co_structs c') = map st_box [frame 3 14 3; frame 3 14 1; frame 3 14 2] /\
  snd (to nz None c 2) = Ok tt /\ snd (to nz None c' 2) = Err ValueError.
Proof. exact selection_unsaved. Qed.
Print Assumptions C29_selection_saved_refuted.

(** ** C64 *)

(** The type files, whatever the set size and even if saving fails: one line per atom with the
    position of its element among the distinct elements in order of first appearance, but instead
    of the elements themselves the numbers 0, 1, 2, ... *)
Theorem C64_type_files :
  forall (F : Type) (nonzero : F -> bool) (structs : list struct) (tot pot kin : list F) vir c s0 r old s, make structs tot pot kin vir = Ok c ->
  structs = s0 :: r -> st_species s0 <> [] ->
  exists ts, Forall2 (fun a t => nth_error (distinct Z.eqb (st_species s0)) t = Some a) (st_species s0) ts /\
  texts (fst (to nonzero old c s)) =
  [("type_map.raw", each_line (map dec (seq 0 (length (distinct Z.eqb (st_species s0)))))); ("type.raw", each_line (map dec ts))]%string.
Proof. exact (@type_files). Qed.
Print Assumptions C64_type_files.

(** So the saved files do not tell lithium silicide from sodium chloride. *)
Theorem C64_elements_refuted :
  exists c c', three 3 14 = Ok c /\ three 11 17 = Ok c' /\
  forall old s, texts (fst (to nz old c s)) = texts (fst (to nz old c' s)).
Proof. exact elements_lost. Qed.
Print Assumptions C64_elements_refuted.
