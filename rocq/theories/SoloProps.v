(** Data files read and saved one at a time: C108. *)
From Coq Require Import String.
From Verif Require Import Base ElementModel DataModel DataSpec DataMerge DataGroups DataCases SoloSpec SoloProofs SoloCases.

(** ** C108 *)

(** A file read by itself: its elements are listed by increasing atomic number, each with the
    number of its atoms in the first frame; the set contains all frames of the file and every type
    index points to the atom's element in that list. *)
Theorem C108_read :
  forall (F : Type) (an : F -> Z) (m : raw), shaped m -> closed an m ->
  exists s els, from_file an m None = Ok s /\ elements an m els /\ recorded an m els s /\ contains_files an (map fst (is_dict s)) [m] s /\ whole s.
Proof. exact (@solo_read). Qed.
Print Assumptions C108_read.

Example C108_case_read : (shaped hoh /\ closed id_an hoh) /\ exists s, from_file id_an hoh None = Ok s /\ is_formula s = "H2O1"%string /\
  is_dict s = [("H", 2); ("O", 1)]%string /\ is_types s = [[0; 1; 0]] /\ is_eatom s = Some [[1; 2; 3]]%Z.
Proof. exact (conj (waters_ok hoh (or_introl eq_refl)) hoh_read). Qed.

(** A file with an element that its first frame lacks cannot be read. *)
Theorem C108_late_element :
  forall (F : Type) (an : F -> Z) (m : raw), shaped m -> Forall known (head_numbers an m) -> ~ closed an m -> from_file an m None = Err ValueError.
Proof. exact (@solo_open). Qed.
Print Assumptions C108_late_element.

Example C108_case_late : shaped late_o /\ Forall known (head_numbers id_an late_o) /\ ~ closed id_an late_o.
Proof. exact late_alone. Qed.

(** Two files read by themselves get the same name exactly if their first frames have equally many
    atoms of every element, whatever the elements and the order of the atoms. *)
Theorem C108_names :
  forall (F : Type) (an : F -> Z) (m m' : raw) s s', shaped m -> closed an m -> shaped m' -> closed an m' ->
  from_file an m None = Ok s -> from_file an m' None = Ok s' ->
  (is_formula s = is_formula s' <-> forall a, List.length (filter (Z.eqb a) (head_numbers an m)) = List.length (filter (Z.eqb a) (head_numbers an m'))).
Proof. exact (@solo_names). Qed.
Print Assumptions C108_names.

Example C108_case_names : exists s, from_file id_an ohh None = Ok s /\ is_formula s = "H2O1"%string.
Proof. exact ohh_name. Qed.

(** Files of pairwise different composition can be saved one after another into one directory: each
    gets a directory of its own that holds all its frames and its element list. *)
Theorem C108_saved :
  forall (F : Type) (an : F -> Z) (p : nat) (files : list raw), 0 < p -> (forall m, In m files -> shaped m /\ closed an m) -> all_different an files ->
  exists dirs, save_alone an [] files p = (dirs, Ok tt) /\ Forall2 (keeps an p) files dirs.
Proof. exact (@solo_saved). Qed.
Print Assumptions C108_saved.

(** In the directories of oxygen and of hydrogen the index 0 stands for different elements. *)
Example C108_case_saved : all_different id_an [hoh; o1 7; h2 5] /\ exists dirs, save_alone id_an [] [hoh; o1 7; h2 5] 1 = (dirs, Ok tt) /\
  map fd_name dirs = ["H2O1"; "O1"; "H2"]%string /\ map fd_types dirs = map each_line [["H"; "O"]; ["O"]; ["H"]]%string /\
  map (fun d => int_parts "types.npy" (fd_parts d)) dirs = [[Some [[0; 1; 0]]]; [Some [[0]]]; [Some [[0; 0]]]].
Proof. exact (conj three_different three_saved). Qed.

(** The first file whose composition was there before ends the saving with FileExistsError: what
    was saved stays as it is, and nothing of this file or of those after it is saved. *)
Theorem C108_again_fails :
  forall (F : Type) (an : F -> Z) (p : nat) before (m : raw) after, 0 < p -> (forall m', In m' (before ++ [m]) -> shaped m' /\ closed an m') -> all_different an before ->
  Exists (fun m' => same_composition an m' m = true) before ->
  exists dirs, save_alone an [] (before ++ m :: after) p = (dirs, Err FileExistsError) /\ Forall2 (keeps an p) before dirs.
Proof. exact (@solo_again). Qed.
Print Assumptions C108_again_fails.

Example C108_case_again : exists dirs, save_alone id_an [] [hoh; o1 7; ohh; h2 5] 1 = (dirs, Err FileExistsError) /\ map fd_name dirs = ["H2O1"; "O1"]%string.
Proof. exact water_twice. Qed.
