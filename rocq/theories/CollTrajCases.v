(** Concrete trajectory files made into collections. *)
From Verif Require Import Base Text MovementModel MovementSpec DataModel DataSpec ExtractorSpec CollTrajModel CollTrajSpec CollTrajProofs.

(** A frame of one atom; [row] is repeated as the three lattice rows. *)
Definition tframe (energy row : string) : string :=
  "1 atoms,Iteration (fs) = 0, Etot,Ep,Ek (eV) = " +++ energy +++ " 2 3, SCF" +++ String nl "Lattice vector"
  +++ String nl row +++ String nl row +++ String nl row +++ String nl (dash_run 38) +++ String nl "".
(** Numbers are their spellings; the structure of a frame is hydrogen in a cell. *)
Definition hydrogen (_ : string) : result (@struct string) :=
  Ok (mkStruct [1%Z] ["9"; "0"; "0"; "0"; "9"; "0"; "0"; "0"; "9"] [["0"; "0"; "0"]] [["4"; "5"; "6"]] ["0"]).
Definition not0 (x : string) : bool := negb (String.eqb x "0").
Definition traj (m : mv) : result (@coll string) := from_trajectory string Ok hydrogen (fun _ => Ok tt) m.

(** Two frames with stress; two without; one with and one without; one with and two without. *)
Definition both : string := tframe "11" "1 0 0 stress 7 8 9" +++ tframe "12" "1 0 0 stress 4 5 6".
Definition neither : string := tframe "11" "1 0 0" +++ tframe "12" "1 0 0".
Definition one_of_two : string := tframe "11" "1 0 0" +++ tframe "12" "1 0 0 stress 4 5 6".
Definition one_of_three : string := tframe "10" "1 0 0" +++ tframe "11" "1 0 0" +++ tframe "12" "1 0 0 stress 4 5 6".

Lemma alike_hydrogen n s : hydrogen "" = Ok s -> alike (repeat s n).
Proof.
  intros _. repeat split; intros x y Hx Hy; apply in_map_iff in Hx as (a & <- & Ha); apply in_map_iff in Hy as (b & <- & Hb);
    apply repeat_spec in Ha, Hb; now subst.
Qed.

Lemma both_saved : exists m c dir, mv_open both = Ok m /\ traj m = Ok c /\ alike (co_structs c) /\ co_total c = ["11"; "12"] /\
  to not0 None c 1 = (dir, Ok tt) /\ map (fun d => file "virial.npy" (snd d)) (set_dirs dir) =
    [Some [["7"; "8"; "9"; "7"; "8"; "9"; "7"; "8"; "9"]]; Some [["4"; "5"; "6"; "4"; "5"; "6"; "4"; "5"; "6"]]].
Proof.
  do 3 eexists. split; [vm_compute; reflexivity|]. split; [vm_compute; reflexivity|]. split; [exact (alike_hydrogen 2 _ eq_refl)|].
  split; [reflexivity|]. split; [vm_compute; reflexivity|reflexivity].
Qed.
Lemma neither_saved : exists m c dir, mv_open neither = Ok m /\ traj m = Ok c /\ alike (co_structs c) /\ co_virial c = [] /\
  to not0 None c 1 = (dir, Ok tt) /\ map (fun d => file "tot_energy.npy" (snd d)) (set_dirs dir) = [Some [["11"]]; Some [["12"]]] /\ lacks (set_dirs dir) "virial.npy".
Proof.
  do 3 eexists. split; [vm_compute; reflexivity|]. split; [vm_compute; reflexivity|]. split; [exact (alike_hydrogen 2 _ eq_refl)|].
  split; [reflexivity|]. split; [vm_compute; reflexivity|]. split; [reflexivity|]. repeat constructor.
Qed.
Lemma one_of_two_fails : exists m c, mv_open one_of_two = Ok m /\ traj m = Ok c /\ alike (co_structs c) /\
  List.length (concat (co_virial c)) mod num_frames m <> 0 /\ snd (to not0 None c 1) = Err ValueError.
Proof.
  do 2 eexists. split; [vm_compute; reflexivity|]. split; [vm_compute; reflexivity|]. split; [exact (alike_hydrogen 2 _ eq_refl)|].
  split; [vm_compute; discriminate|vm_compute; reflexivity].
Qed.

(** The nine numbers of the only stress are dealt out over the three frames. *)
Lemma one_of_three_wrong : exists m c dir, mv_open one_of_three = Ok m /\ num_frames m = 3 /\ traj m = Ok c /\ alike (co_structs c) /\
  to not0 None c 1 = (dir, Ok tt) /\
  map (fun d => file "virial.npy" (snd d)) (set_dirs dir) = [Some [["4"; "5"; "6"]]; Some [["4"; "5"; "6"]]; Some [["4"; "5"; "6"]]] /\
  map (get_frame_virial string Ok "0" m) [0; 1; 2] =
    [Ok [["0"; "0"; "0"]; ["0"; "0"; "0"]; ["0"; "0"; "0"]]; Ok [["0"; "0"; "0"]; ["0"; "0"; "0"]; ["0"; "0"; "0"]];
     Ok [["4"; "5"; "6"]; ["4"; "5"; "6"]; ["4"; "5"; "6"]]].
Proof.
  do 3 eexists. split; [vm_compute; reflexivity|]. split; [vm_compute; reflexivity|]. split; [vm_compute; reflexivity|]. split; [exact (alike_hydrogen 3 _ eq_refl)|].
  split; [vm_compute; reflexivity|]. split; [reflexivity|vm_compute; reflexivity].
Qed.
