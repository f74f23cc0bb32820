(** Model of [DStructure.get_site_index], matersdk/io/publicLayer/structure.py:538-575. *)
From Verif Require Import Vec.

(** structure.py:554-562, [epsilon=1e-10]; [rnd] is Python's [round]. *)
Definition is_almost_int (rnd : R -> Z) (num : R) : bool :=
  if Rle_dec (Rabs (num - IZR (rnd num))) (1 / 10 ^ 10) then true else false.

(** structure.py:566-567: [np.linalg.inv(lattice.T) @ offset], the solution of
    the linear system with the lattice vectors as columns (Cramer's rule). *)
Definition offset_coeff (A B C offset : vec) : vec :=
  (det offset B C / det A B C, det A offset C / det A B C, det A B offset / det A B C).

(** structure.py:565-575 *)
Fixpoint site_index_from (rnd : R -> Z) (A B C : vec) (p : vec) (idx : nat) (coords : list vec) : nat :=
  match coords with
  | [] => 0
  | c :: r =>
      let k := offset_coeff A B C (vsub p c) in
      if is_almost_int rnd (vx k) && is_almost_int rnd (vy k) && is_almost_int rnd (vz k)
      then idx + 1
      else site_index_from rnd A B C p (idx + 1) r
  end.
Definition get_site_index (rnd : R -> Z) (A B C : vec) (coords : list vec) (p : vec) : nat :=
  site_index_from rnd A B C p 0 coords.

(** structure.py:444-468: the Cartesian shift of a copy, [coeff @ lattice],
    added to every position; the coefficients are given doubled. *)
Definition translate_R (A B C : vec) (t : Z * Z * Z) (p : vec) : vec :=
  let '(a, b, c) := t in vadd p (comb A B C (IZR a / 2) (IZR b / 2) (IZR c / 2)).
