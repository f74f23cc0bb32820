(** Model of [StructCollection.from_trajectory_s], matersdk/data/struct_collection.py:146-177, for
    the trajectories of matersdk/io/pwmat/output/movement.py.  The arrays are those of
    [get_all_frame_structures_info]; an array of tensors of unequal shapes raises ValueError (NumPy
    1.24 and later), a tensor is the list of its numbers, row by row. *)
From Verif Require Import Base Text MovementModel DataModel.

Section Trajectory.
Variable F : Type.
Variable pfloat : string -> result F.
(** What a structure built from the text of a frame is used for (DataModel.v), and the builder. *)
Variable from_str : string -> result (@struct F).
Variable check_int : string -> result unit.

(** struct_collection.py:159-177, movement.py:214-220 *)
Definition from_trajectory (m : mv) : result (@coll F) :=
  bind (get_all_frame_structures_info F pfloat struct from_str check_int m) (fun b =>
  bind (np_stack (map (@concat F) (b_virials F struct b))) (fun vir =>
  make (b_structures F struct b) (map (fun e => fst (fst e)) (b_energies F struct b)) (map (fun e => snd (fst e)) (b_energies F struct b))
       (map snd (b_energies F struct b)) vir)).
End Trajectory.
