(** Working through the frames of a collection, and writing structures in batches: C100, C101.
    The definitions are in [CollModel] (code) and [CollSpec] (vocabulary). *)
From Coq Require Import String.
From Verif Require Import Arr Vec StructModel StructSpec SiteIndexModel SiteIndexSpec NeighModel NeighReal AvgModel DataModel PertModel NeighSpec CollModel CollSpec CollProofs CollCases.
Open Scope nat_scope.

(** ** C100 *)

(** Saving a collection into image folders never works: for every collection that can be built,
    every directory and whatever the later lines would do, the call ends with TypeError at the first
    frame.  The folder of that frame is empty afterwards, also if an earlier save had filled it; all
    other entries are as before.  (A plain file of that name stops the call before.) *)
Theorem C100_save_fails :
  forall (F : Type) (rest : listing -> nat -> listing * result unit) (tables : listing -> listing * result unit) (old : option listing)
    structs tot pot kin vir (c : coll (F := F)), make structs tot pot kin vir = Ok c ->
  let dir := existing old in
  let name := padw (String.length (dec (length structs))) 0 in
  (forall t, find_entry dir name = Some (File t) -> save_all_info rest tables old c = (dir, Err PlainException)) /\
  ((forall t, find_entry dir name <> Some (File t)) -> exists dir', save_all_info rest tables old c = (dir', Err TypeError) /\ emptied dir dir' name).
Proof. exact @save_fails. Qed.
Print Assumptions C100_save_fails.

(** Writing perturbed structures for several systems never writes one: folders that existed keep
    their contents, new ones are empty; the call only returns if no copies were asked for (or no
    systems were given), and ends with TypeError at the first system that could be read and
    perturbed. *)
Theorem C100_batch_fails :
  forall (A : Type) (qr : mat -> mat * mat) (read : string -> result (structure A)) (write : listing -> nat -> structure A -> listing * result unit)
    (pert_num : nat) (frac dist : R) rand randn (systems : list string) made made' res,
  batch_perturb qr read write pert_num frac dist rand randn systems made = (made', res) ->
  (forall x, made' x = made x \/ made x = None /\ made' x = Some []) /\
  (res = Ok tt -> pert_num = 0 \/ systems = []) /\
  (forall x r s l, systems = x :: r -> read x = Ok s -> perturb qr s pert_num frac dist (rand x) (randn x) = Ok l -> 0 < pert_num -> res = Err TypeError).
Proof. exact @batch_spec. Qed.
Print Assumptions C100_batch_fails.

(** What was saved for frame 0 is gone, the rest is untouched; the later lines would have worked. *)
Example C100_case : exists c, make [toy_struct; toy_struct] [0%Z; 0%Z] [0%Z; 0%Z] [0%Z; 0%Z] [[0%Z]; [0%Z]] = Ok c /\
  save_all_info (fun d _ => (d, Ok tt)) (fun d => (d, Ok tt)) (Some earlier) c =
  ([("1", Folder [("box.npy", File "2")]); ("notes", File "mine"); ("0", Folder [])]%string, Err TypeError).
Proof. eexists. split; reflexivity. Qed.
(** Ten frames: the folders are numbered with two digits. *)
Example C100_case_digits : exists c, make (repeat toy_struct 10) [] [] [] [] = Ok c /\
  save_all_info (fun d _ => (d, Ok tt)) (fun d => (d, Ok tt)) None c = ([("00"%string, Folder [])], Err TypeError).
Proof. eexists. split; reflexivity. Qed.

(** The names of the image folders: as many characters as asked for, unless the number itself is
    longer, and different for different frames. *)
Theorem C100_folder_names :
  forall w a : nat, String.length (padw w a) = Nat.max w (String.length (dec a)) /\ (forall b, padw w a = padw w b -> a = b).
Proof. exact folder_names. Qed.
Print Assumptions C100_folder_names.

(** Which calls of the writing method are accepted at all: those that name the path and the format,
    and nothing besides the option for magnetic moments. *)
Theorem C100_accepted : forall kws,
  call_keywords to_params kws = Ok tt <->
  incl kws ["file_path"; "file_format"; "include_magnetic_moments"]%string /\ In "file_path"%string kws /\ In "file_format"%string kws.
Proof. exact to_accepted. Qed.
Print Assumptions C100_accepted.

(** In general: every keyword is a parameter, every parameter without default is given. *)
Theorem C100_call : forall params kws,
  call_keywords params kws = Ok tt <->
  (forall k, In k kws -> exists b, In (k, b) params) /\ (forall n, In (n, true) params -> In n kws).
Proof. exact call_accepted. Qed.
Print Assumptions C100_call.

Example C100_accepted_case : call_keywords to_params ["file_format"; "file_path"]%string = Ok tt /\
  call_keywords to_params ["file_format"]%string = Err TypeError.
Proof. split; reflexivity. Qed.

(** ** C101 *)

(** The count of a collection is the largest number of atoms closer than the cutoff around a site of
    any frame, minus one: no frame has more and some frame has as many. *)
Theorem C101_count :
  forall (rcut : R) (s0 s1 s2 : Z), positive_odd s0 -> positive_odd s1 -> positive_odd s2 -> (0 <= rcut)%R ->
  forall (cpus : Z) (frames : list frame), (3 <= cpus)%Z -> frames <> [] -> Forall regular frames ->
  exists m, collection_max_nbrs rcut s0 s1 s2 cpus frames = Ok (Z.of_nat m - 1)%Z /\ largest_of_frames (closer rcut) s0 s1 s2 frames m.
Proof. exact collection_count. Qed.
Print Assumptions C101_count.

(** Per element: exactly the elements asked for have an entry, the largest number of other atoms of
    the element closer than the cutoff around a site of any frame. *)
Theorem C101_elements :
  forall (rcut : R) (s0 s1 s2 : Z), positive_odd s0 -> positive_odd s1 -> positive_odd s2 -> (0 <= rcut)%R ->
  forall (an : string -> result Z) (elements : list string), (forall e, In e elements -> exists z, an e = Ok z) ->
  forall (cpus : Z) (frames : list frame), (3 <= cpus)%Z -> frames <> [] -> Forall regular frames ->
  exists d, collection_max_elements rcut s0 s1 s2 cpus an elements frames = Ok d /\
    (forall e, (exists m, lookup d e = Ok m) <-> In e elements) /\
    forall e z, In e elements -> an e = Ok z -> exists m, lookup d e = Ok m /\ largest_of_frames (closer_element z rcut) s0 s1 s2 frames m.
Proof. exact collection_elements. Qed.
Print Assumptions C101_elements.

(** These numbers are wide enough for every frame without an atom exactly on the cutoff: its index
    lists and its relative coordinates can be padded to them, for every centre element. *)
Theorem C101_enough :
  forall (rcut : R) (s0 s1 s2 : Z), positive_odd s0 -> positive_odd s1 -> positive_odd s2 -> (0 <= rcut)%R ->
  forall (an : string -> result Z) (elements : list string), (forall e, In e elements -> exists z, an e = Ok z) ->
  forall (rnd : R -> Z) argsort (cpus : Z) (frames : list frame) d, (3 <= cpus)%Z -> Forall regular frames -> sorts Rleb argsort ->
  collection_max_elements rcut s0 s1 s2 cpus an elements frames = Ok d ->
  forall f e z m center, In f frames -> fr_sites f <> [] -> none_on_cutoff rcut s0 s1 s2 f ->
  In e elements -> an e = Ok z -> z <> 0%Z -> lookup d e = Ok m -> 0 < m ->
  exists table rows, structure_neighbors_v1 argsort (fr_a f) (fr_b f) (fr_c f) (fr_sites f) rcut s0 s1 s2 true = Ok table /\
    _get_nbrs_indices vzero (get_site_index rnd (fr_a f) (fr_b f) (fr_c f) (map snd (fr_sites f))) table center z (Some m) = Ok rows /\
    Forall (fun r => length r = m) rows /\
    exists vecs, expand_rc vzero 0%R vsub table center z m = Ok vecs.
Proof. exact collection_enough. Qed.
Print Assumptions C101_enough.

(** With one or two processors every query fails; a name that is no element makes it fail. *)
Theorem C101_refused :
  forall (rcut : R) (s0 s1 s2 : Z) (an : string -> result Z) (elements : list string),
  (forall cpus frames, (cpus <= 2)%Z -> collection_max_nbrs rcut s0 s1 s2 cpus frames = Err ValueError /\
     collection_max_elements rcut s0 s1 s2 cpus an elements frames = Err ValueError) /\
  (forall cpus f frames e, (3 <= cpus)%Z -> positive_odd s0 -> positive_odd s1 -> positive_odd s2 -> (0 <= rcut)%R -> regular f -> fr_sites f <> [] ->
     In e elements -> an e = Err KeyError -> (forall x y, an x = Err y -> y = KeyError) ->
     collection_max_elements rcut s0 s1 s2 cpus an elements (f :: frames) = Err KeyError).
Proof. exact collection_refused. Qed.
Print Assumptions C101_refused.

(** A collection without frames is refused too. *)
Theorem C101_empty :
  forall (rcut : R) (s0 s1 s2 : Z) (an : string -> result Z) (elements : list string) (cpus : Z), (3 <= cpus)%Z ->
  collection_max_nbrs rcut s0 s1 s2 cpus [] = Err ValueError /\ collection_max_elements rcut s0 s1 s2 cpus an elements [] = Err IndexError.
Proof. exact collection_empty. Qed.
Print Assumptions C101_empty.

(** The hypotheses can be met: two frames in a cube of side 10, cutoff 3/2, and the width found for
    hydrogen is positive. *)
Example C101_case : Forall regular [single_frame; cube_frame] /\ positive_odd 3 /\ none_on_cutoff (3 / 2)%R 3 3 3 cube_frame /\
  (exists d m, collection_max_elements (3 / 2)%R 3 3 3 8 toy_an ["H"%string] [single_frame; cube_frame] = Ok d /\ lookup d "H"%string = Ok m /\ 0 < m) /\
  sorts Rleb (insertion_argsort Rleb).
Proof. exact (conj two_frames_regular (conj odd3 (conj cube_off (conj two_frames_width (insertion_sorts Rleb Rleb_total))))). Qed.
(** Test: the dictionaries of three frames. *)
Example C101_case_merge : merge_max [[("O", 1); ("H", 2)]; [("O", 3); ("H", 0)]; [("O", 2); ("H", 2)]]%string = Ok [("O", 3); ("H", 2)]%string.
Proof. reflexivity. Qed.
