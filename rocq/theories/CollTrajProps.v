(** Trajectory files turned into collections and saved: C109. *)
From Verif Require Import Base Text MovementModel DataModel DataSpec ExtractorSpec CollTrajModel CollTrajSpec CollTrajProofs CollTrajCases.

(** ** C109 *)

(** The collection made from a trajectory file has one structure and one triple of energies per
    frame, those of the text of that frame, in the order of the file; its virials are the stresses
    of the frames that have one. *)
Theorem C109_collection :
  forall (F : Type) (pfloat : string -> result F) (fs : string -> result (@struct F)) (chk : string -> result unit) (file : string) (m : mv) (c : @coll F),
  mv_open file = Ok m -> from_trajectory F pfloat fs chk m = Ok c ->
  exists texts es vs, frame_texts m texts /\ frames_are pfloat fs texts (co_structs c) es vs /\
  co_total c = map (fun e => fst (fst e)) es /\ co_potential c = map (fun e => snd (fst e)) es /\ co_kinetic c = map snd es /\
  co_virial c = map (@concat F) (stressed vs) /\ equal_lengths (co_virial c).
Proof. exact (@trajectory_collection). Qed.
Print Assumptions C109_collection.

(** If all frames have a stress, or none has, the collection can be saved in sets of any positive
    size, and the sets hold cells, positions, forces, energies and stresses frame by frame. *)
Theorem C109_saved :
  forall (F : Type) (pfloat : string -> result F) (fs : string -> result (@struct F)) (chk : string -> result unit) (nonzero : F -> bool) (file : string) (m : mv) (c : @coll F) (old : option (list entry)) (s : nat),
  mv_open file = Ok m -> from_trajectory F pfloat fs chk m = Ok c -> alike (co_structs c) -> 0 < s ->
  exists texts es vs, frame_texts m texts /\ frames_are pfloat fs texts (co_structs c) es vs /\
  (Forall (fun v => v <> None) vs \/ Forall (fun v => v = None) vs ->
   exists dir k, to nonzero old c (Z.of_nat s) = (dir, Ok tt) /\ num_frames m <= s * k < num_frames m + s /\
   map fst (set_dirs dir) = map (fun i => ("set." +++ pad3 i)) (seq 0 k) /\
   holds (set_dirs dir) "cell.npy" (map st_box (co_structs c)) s /\
   holds (set_dirs dir) "atom_coord.npy" (map (fun x => concat (st_coords x)) (co_structs c)) s /\
   holds (set_dirs dir) "atom_force.npy" (map (fun x => concat (st_forces x)) (co_structs c)) s /\
   holds (set_dirs dir) "tot_energy.npy" (map (fun e => [fst (fst e)]) es) s /\
   (if existsb nonzero (concat (map (@concat F) (stressed vs))) then holds (set_dirs dir) "virial.npy" (map (@concat F) (stressed vs)) s
    else lacks (set_dirs dir) "virial.npy") /\
   (if existsb (existsb nonzero) (map st_energies (co_structs c)) then holds (set_dirs dir) "atom_energy.npy" (map st_energies (co_structs c)) s
    else lacks (set_dirs dir) "atom_energy.npy")).
Proof. exact (@trajectory_saved). Qed.
Print Assumptions C109_saved.

Example C109_case_saved : exists m c dir, mv_open both = Ok m /\ traj m = Ok c /\ alike (co_structs c) /\ co_total c = ["11"; "12"] /\
  to not0 None c 1 = (dir, Ok tt) /\ map (fun d => DataSpec.file "virial.npy" (snd d)) (set_dirs dir) =
    [Some [["7"; "8"; "9"; "7"; "8"; "9"; "7"; "8"; "9"]]; Some [["4"; "5"; "6"; "4"; "5"; "6"; "4"; "5"; "6"]]].
Proof. exact both_saved. Qed.
Example C109_case_no_stress : exists m c dir, mv_open neither = Ok m /\ traj m = Ok c /\ alike (co_structs c) /\ co_virial c = [] /\
  to not0 None c 1 = (dir, Ok tt) /\ map (fun d => DataSpec.file "tot_energy.npy" (snd d)) (set_dirs dir) = [Some [["11"]]; Some [["12"]]] /\
  lacks (set_dirs dir) "virial.npy".
Proof. exact neither_saved. Qed.

(** If only some frames have a stress, saving fails with ValueError and writes no set whenever the
    numbers of the stresses cannot be dealt out evenly over the frames. *)
Theorem C109_uneven_fails :
  forall (F : Type) (pfloat : string -> result F) (fs : string -> result (@struct F)) (chk : string -> result unit) (nonzero : F -> bool) (file : string) (m : mv) (c : @coll F) (old : option (list entry)) (s : Z),
  mv_open file = Ok m -> from_trajectory F pfloat fs chk m = Ok c -> alike (co_structs c) ->
  exists texts es vs, frame_texts m texts /\ frames_are pfloat fs texts (co_structs c) es vs /\
  (List.length (concat (concat (stressed vs))) mod num_frames m <> 0 -> snd (to nonzero old c s) = Err ValueError /\ set_dirs (fst (to nonzero old c s)) = []).
Proof. exact (@trajectory_uneven). Qed.
Print Assumptions C109_uneven_fails.

Example C109_case_uneven : exists m c, mv_open one_of_two = Ok m /\ traj m = Ok c /\ alike (co_structs c) /\
  List.length (concat (co_virial c)) mod num_frames m <> 0 /\ snd (to not0 None c 1) = Err ValueError.
Proof. exact one_of_two_fails. Qed.

(** If they can, a wrong virial.npy is saved without any error: of three frames the last has a
    stress, and every frame gets a third of its numbers. *)
Theorem C109_virials_refuted : exists m c dir, mv_open one_of_three = Ok m /\ num_frames m = 3 /\ traj m = Ok c /\ alike (co_structs c) /\
  to not0 None c 1 = (dir, Ok tt) /\
  map (fun d => DataSpec.file "virial.npy" (snd d)) (set_dirs dir) = [Some [["4"; "5"; "6"]]; Some [["4"; "5"; "6"]]; Some [["4"; "5"; "6"]]] /\
  map (get_frame_virial string Ok "0" m) [0; 1; 2] =
    [Ok [["0"; "0"; "0"]; ["0"; "0"; "0"]; ["0"; "0"; "0"]]; Ok [["0"; "0"; "0"]; ["0"; "0"; "0"]; ["0"; "0"; "0"]];
     Ok [["4"; "5"; "6"]; ["4"; "5"; "6"]; ["4"; "5"; "6"]]].
Proof. exact one_of_three_wrong. Qed.
Print Assumptions C109_virials_refuted.

(** All of this is for a working builder of structures.  With the one of the repository no
    collection can be made from any file. *)
Theorem C109_unavailable_refuted :
  forall (F : Type) (pfloat : string -> result F) mk chk file m, mv_open file = Ok m -> from_trajectory F pfloat (from_str mk "pwmat") chk m = Err AttributeError.
Proof. exact trajectory_unavailable. Qed.
Print Assumptions C109_unavailable_refuted.
