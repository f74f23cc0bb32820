(** Model of the parts of matersdk/data/struct_collection.py that go through all frames of a
    collection in worker processes (the neighbour counts) or write them into image folders, and of
    the batch writer of matersdk/adalearn/generator/perturbation.py.  The counts of one frame are
    those of [NeighModel], perturbation is that of [PertModel]. *)
From Coq Require Import String.
From Verif Require Import Arr Vec StructModel SiteIndexModel NeighModel AvgModel DataModel PertModel.
Open Scope nat_scope.

(** *** Neighbour counts of a collection *)

(** A frame: the lattice vectors and the sites with atomic number and Cartesian position. *)
Record frame : Type := mkFrame { fr_a : vec; fr_b : vec; fr_c : vec; fr_sites : list (Z * vec) }.

Section Counts.
Variables (rcut : R) (s0 s1 s2 : Z).

(** struct_collection.py:540-556 and neigh.py:11-55. *)
Definition frame_max_nbrs (f : frame) : result Z :=
  structure_max_nbrs (fr_a f) (fr_b f) (fr_c f) (fr_sites f) rcut s0 s1 s2.
(** struct_collection.py:427-446; [np.max] of nothing raises ValueError. *)
Definition collection_max_nbrs (cpus : Z) (frames : list frame) : result Z :=
  bind (starmap cpus frame_max_nbrs frames) (fun l =>
  match l with [] => Err ValueError | x :: r => Ok (fold_left Z.max r x) end).

(** struct_collection.py:559-572 and neigh.py:59-108 with Cartesian coordinates; [specie2an] is the
    table specie2atomic_number. *)
Definition frame_max_elements (specie2an : string -> result Z) (elements : list string) (f : frame) : result dict :=
  bind (get_key_idxs vec (translate_R (fr_a f) (fr_b f) (fr_c f)) s0 s1 s2 (fr_sites f)) (fun key_idxs =>
  bind (make_supercell_ vec (translate_R (fr_a f) (fr_b f) (fr_c f)) s0 s1 s2 true (fr_sites f)) (fun supercell =>
  max_num_nbrs_real_element vdist Rleb specie2an supercell key_idxs rcut elements)).
(** struct_collection.py:478-488: the entries of all dictionaries, started from the keys of the
    first one. *)
Definition merge_max (ds : list dict) : result dict :=
  bind (get ds 0) (fun d0 =>
  foldM (fun acc d => foldM (fun acc k => bind (lookup d k) (fun v => bind (lookup acc k) (fun old =>
    Ok (if old <? v then update acc k v else acc)))) (map fst d) acc) ds (fromkeys (map fst d0))).
(** struct_collection.py:449-490 *)
Definition collection_max_elements (cpus : Z) (specie2an : string -> result Z) (elements : list string) (frames : list frame) : result dict :=
  bind (starmap cpus (frame_max_elements specie2an elements) frames) merge_max.
End Counts.

(** *** Writing structures *)

(** A Python call with keyword arguments only: a parameter is its name and whether it must be
    given.  TypeError for an unexpected keyword or a missing argument. *)
Definition call_keywords (params : list (string * bool)) (kws : list string) : result unit :=
  if forallb (fun k => existsb (fun p => String.eqb k (fst p)) params) kws
     && forallb (fun p : string * bool => negb (snd p) || existsb (String.eqb (fst p)) kws) params
  then Ok tt else Err TypeError.
(** structure.py:103-107, the parameters of [DStructure.to]. *)
Definition to_params : list (string * bool) :=
  [("file_path", true); ("file_format", true); ("include_magnetic_moments", false)]%string.

(** An entry of a directory. *)
Inductive node : Type := File (content : string) | Folder (entries : list (string * node)).
Definition listing : Type := list (string * node).
Definition find_entry (dir : listing) (name : string) : option node :=
  match find (fun e => String.eqb (fst e) name) dir with Some e => Some (snd e) | None => None end.
Definition without (dir : listing) (name : string) : listing := filter (fun e => negb (String.eqb (fst e) name)) dir.

(** [f"%0{w}d" % i] *)
Definition padw (w i : nat) : string := (zeros (w - String.length (dec i)) ++ dec i)%string.

Section Save.
(** What the lines after the first call (struct_collection.py:367-417) do with the directory. *)
Variable rest : listing -> nat -> listing * result unit.

(** struct_collection.py:351-417: [shutil.rmtree] raises NotADirectoryError for a plain file
    (written PlainException here). *)
Fixpoint save_images (w : nat) (idxs : list nat) (dir : listing) : listing * result unit :=
  match idxs with
  | [] => (dir, Ok tt)
  | i :: r =>
    let name := padw w i in
    match find_entry dir name with
    | Some (File _) => (dir, Err PlainException)
    | _ =>
      let dir1 := without dir name ++ [(name, Folder [])] in
      match call_keywords to_params ["output_file_format"; "output_file_path"]%string with
      | Err e => (dir1, Err e)
      | Ok _ => match rest dir1 i with (dir2, Ok _) => save_images w r dir2 | bad => bad end
      end
    end
  end.
(** struct_collection.py:334-341: the directory is made if it does not exist. *)
Definition existing (old : option listing) : listing := match old with Some d => d | None => [] end.
(** struct_collection.py:317-424; [old] is the directory before, [None] if there is none.  [tables]
    is what the worker processes do (419-424). *)
Definition save_all_info {F} (tables : listing -> listing * result unit) (old : option listing) (c : coll (F := F)) : listing * result unit :=
  let n := length (co_structs c) in
  match save_images (String.length (dec n)) (seq 0 n) (existing old) with
  | (dir, Ok _) => tables dir
  | bad => bad
  end.
End Save.

Section Batch.
Context {A : Type}.
Variable qr : mat -> mat * mat.
(** Reading <system>/atom.config (DStructure.from_file). *)
Variable read : string -> result (structure A).
(** [write]: what a call of [to] that is accepted does with the contents of the folder. *)
Variable write : listing -> nat -> structure A -> listing * result unit.

(** perturbation.py:128-131 *)
Fixpoint write_all (k : nat) (l : list (structure A)) (dir : listing) : listing * result unit :=
  match l with
  | [] => (dir, Ok tt)
  | s :: r =>
    match call_keywords to_params ["output_file_path"; "output_file_format"]%string with
    | Err e => (dir, Err e)
    | Ok _ => match write dir k s with (dir', Ok _) => write_all (S k) r dir' | bad => bad end
    end
  end.
(** perturbation.py:114-131; [made x] is the contents of the folder "structures" of system x, [None]
    if it does not exist.  [rand], [randn]: the random numbers drawn for a system. *)
Fixpoint batch_perturb (pert_num : nat) (cell_pert_fraction atom_pert_distance : R)
    (rand : string -> nat -> six) (randn : string -> nat -> nat -> vec) (systems : list string) (made : string -> option listing)
  : (string -> option listing) * result unit :=
  match systems with
  | [] => (made, Ok tt)
  | x :: r =>
    match bind (read x) (fun s => perturb qr s pert_num cell_pert_fraction atom_pert_distance (rand x) (randn x)) with
    | Err e => (made, Err e)
    | Ok l =>
      let dir0 := existing (made x) in
      let '(dir, res) := write_all 0 l dir0 in
      let made' := fun y => if String.eqb y x then Some dir else made y in
      match res with
      | Ok _ => batch_perturb pert_num cell_pert_fraction atom_pert_distance rand randn r made'
      | Err e => (made', Err e)
      end
    end
  end.
End Batch.
