(** Independent vocabulary for positions modulo the lattice. *)
From Verif Require Import Vec.

(** [p] is [c] plus a lattice vector, up to 1e-10 in each lattice component. *)
Definition lattice_image (A B C c p : vec) : Prop :=
  exists (i j k : Z) (e f g : R),
    p = vadd c (comb A B C (IZR i + e) (IZR j + f) (IZR k + g)) /\
    Rabs e <= 1 / 10 ^ 10 /\ Rabs f <= 1 / 10 ^ 10 /\ Rabs g <= 1 / 10 ^ 10.
