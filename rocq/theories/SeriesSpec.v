(** Vocabulary for the average bonds of a trajectory. *)
From Verif Require Import Arr Vec StructSpec NeighModel NeighSpec NeighReal AvgModel AvgSpec CollModel.
Open Scope nat_scope.

(** A frame with atoms, all in the cell and no two of them images of each other, whose cell has a
    volume and whose supercell reaches the cutoff. *)
Definition proper (rcut : R) (s0 s1 s2 : Z) (f : frame) : Prop :=
  det (fr_a f) (fr_b f) (fr_c f) <> 0%R /\ distinct_sites (fr_a f) (fr_b f) (fr_c f) (map snd (fr_sites f)) /\
  Forall (fun s => in_cell (fr_a f) (fr_b f) (fr_c f) (snd s)) (fr_sites f) /\ fr_sites f <> [] /\
  reaches rcut s0 (fr_a f) (fr_b f) (fr_c f) /\ reaches rcut s1 (fr_b f) (fr_c f) (fr_a f) /\ reaches rcut s2 (fr_c f) (fr_a f) (fr_b f).

(** The average length of the bonds of a frame between the two elements; none without bonds. *)
Definition frame_average (rcut : R) (a1 a2 : Z) (f : frame) (v : option R) : Prop :=
  exists keys, all_bonds (fr_a f) (fr_b f) (fr_c f) (fr_sites f) rcut a1 a2 keys /\ v = average (map bond_length keys).
