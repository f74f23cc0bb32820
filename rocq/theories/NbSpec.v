(** What the periodic neighbour search is meant to deliver, stated without
    bins, chains or copies. *)
From Verif Require Export Vec NbModel.
Open Scope Z_scope.

(** The lattice vector i*A + j*B + k*C. *)
Definition lattice_vec (c : cell) (t : Z * Z * Z) : vec :=
  let '(i, j, k) := t in comb (bA c) (bB c) (bC c) (IZR i) (IZR j) (IZR k).

(** Images may only be taken along the periodic directions. *)
Definition allowed (pbc : bool * bool * bool) (t : Z * Z * Z) : Prop :=
  let '(w0, w1, w2) := pbc in let '(i, j, k) := t in
  (w0 = false -> i = 0) /\ (w1 = false -> j = 0) /\ (w2 = false -> k = 0).

(** The image of atom [j] displaced by [t] lies within the cutoff of atom [i]
    (and is not the atom itself or closer than sqrt(1/1000)). *)
Definition is_neighbour (rcut : R) (pbc : bool * bool * bool) (c : cell) (i j : nat) (t : Z * Z * Z) : Prop :=
  exists xi xj, nth_error (coords c) i = Some xi /\ nth_error (coords c) j = Some xj /\ allowed pbc t /\
    (1 / 1000 < dist2 (vadd xj (lattice_vec c t)) xi < rcut * rcut)%R.

(** Every atom lies in the unit cell: fractional coordinates in [0, 1). *)
Definition wrapped_point (c : cell) (p : vec) : Prop :=
  exists f0 f1 f2, (0 <= f0 < 1)%R /\ (0 <= f1 < 1)%R /\ (0 <= f2 < 1)%R /\ p = comb (bA c) (bB c) (bC c) f0 f1 f2.
Definition wrapped (c : cell) : Prop := Forall (wrapped_point c) (coords c).

(** Along every Cartesian axis some lattice vector has a positive component. *)
Definition faces_positive (c : cell) : Prop :=
  (0 < vx (bA c) \/ 0 < vx (bB c) \/ 0 < vx (bC c))%R /\
  (0 < vy (bA c) \/ 0 < vy (bB c) \/ 0 < vy (bC c))%R /\
  (0 < vz (bA c) \/ 0 < vz (bB c) \/ 0 < vz (bC c))%R.

Definition positive3 (s : vec) : Prop := (0 < vx s)%R /\ (0 < vy s)%R /\ (0 < vz s)%R.

(** A well-formed input. *)
Definition proper (c : cell) : Prop :=
  length (numbers c) = length (coords c) /\ det (bA c) (bB c) (bC c) <> 0%R.

(** Lattice vectors of non-periodic directions have no component along the
    periodic Cartesian axes (slabs, wires, molecules, full crystals). *)
Definition aligned_pbc (pbc : bool * bool * bool) (c : cell) : Prop :=
  let '(w0, w1, w2) := pbc in
  forall f, (f = vx /\ w0 = true) \/ (f = vy /\ w1 = true) \/ (f = vz /\ w2 = true) ->
    (w0 = false -> f (bA c) = 0%R) /\ (w1 = false -> f (bB c) = 0%R) /\ (w2 = false -> f (bC c) = 0%R).

(** Shifts of a supercell with [s] copies: -s < 2i <= s. *)
Definition centred (s i : Z) : Prop := - s < 2 * i <= s.
