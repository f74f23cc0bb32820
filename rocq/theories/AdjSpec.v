(** Vocabulary for the adjacency matrix. *)
From Verif Require Import Vec.
Open Scope nat_scope.
Open Scope list_scope.

Definition entry (m : list (list Z)) (i j : nat) (v : Z) : Prop := exists row, nth_error m i = Some row /\ nth_error row j = Some v.
Definition square (m : list (list Z)) (n : nat) : Prop := length m = n /\ Forall (fun row => length row = n) m.

(** There are exactly [n] lattice translations with property [P]. *)
Definition there_are (n : nat) (P : Z * Z * Z -> Prop) : Prop := exists l, NoDup l /\ (forall t, In t l <-> P t) /\ length l = n.

(** The image of the atom at [g] moved by [t] cells is within [rcut] of the atom at [f]. *)
Definition within_cutoff (A B C : vec) (rcut : R) (f g : vec) (t : Z * Z * Z) : Prop :=
  let '(a, b, c) := t in
  (sqrt (dist2 (vadd (comb A B C (vx g) (vy g) (vz g)) (comb A B C (IZR a) (IZR b) (IZR c))) (comb A B C (vx f) (vy f) (vz f))) <= rcut)%R.

Definition unit_coords (f : vec) : Prop := (0 <= vx f < 1)%R /\ (0 <= vy f < 1)%R /\ (0 <= vz f < 1)%R.
