(** Model of the object [AvgBond] of matersdk/feature/avg/avgbond.py: the average bond length of
    every frame of a trajectory.  The frames are those the reader of MOVEMENT files delivers. *)
From Coq Require Import String.
From Verif Require Import Arr Vec NeighModel AvgModel ElementModel CollModel.
Open Scope nat_scope.

Section Series.
Variable argsort : list R -> list nat.

(** avgbond.py:270-288, [ParallelFunction.get_avg_bond_length]: the neighbour table is made with
    the default options of neigh.py:313-320. *)
Definition frame_avg_bond (rcut : R) (s0 s1 s2 a1 a2 : Z) (f : frame) : result (option R) :=
  bind (structure_neighbors_v1 argsort (fr_a f) (fr_b f) (fr_c f) (fr_sites f) rcut s0 s1 s2 true) (fun table =>
  get_avg_bond_length table a1 a2).

(** avgbond.py:35-39, the constructor: two look-ups, then [frames_lst[0]]. *)
Definition avg_bond_object (frames : list frame) (element_1 element_2 : string) : result (Z * Z) :=
  bind (number_of element_1) (fun a1 => bind (number_of element_2) (fun a2 => bind (get frames 0) (fun _ => Ok (a1, a2)))).

(** avgbond.py:42-79 after the constructor; the last two options are not passed on. *)
Definition get_frames_avg_bond (cpus : Z) (frames : list frame) (element_1 element_2 : string) (rcut : R) (s0 s1 s2 : Z)
    (reformat_mark coords_are_cartesian : bool) : result (list (option R)) :=
  bind (avg_bond_object frames element_1 element_2) (fun a =>
  starmap cpus (frame_avg_bond rcut s0 s1 s2 (fst a) (snd a)) frames).
End Series.
