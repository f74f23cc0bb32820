(** Model of matersdk/feature/graph/edge.py: the adjacency matrix of a structure.  Real numbers
    stand for floats. *)
From Verif Require Import Vec.
Open Scope nat_scope.
Open Scope list_scope.

(** edge.py:34-36: [x / 2 != 0] holds for every positive [x]. *)
Definition factor_accepted (s : Z) : bool := (0 <? s)%Z && negb (s =? 0)%Z.

(** edge.py:120-122: [list(range(-shift, shift+1))] with [shift = int((s-1)/2)]. *)
Definition shift_of (s : Z) : Z := ((s - 1) / 2)%Z.
Definition shift_range (s : Z) : list Z :=
  map (fun k => Z.of_nat k - shift_of s)%Z (seq 0 (Z.to_nat (2 * shift_of s + 1))).

(** edge.py:124-130 *)
Definition frac_shifts (s0 s1 s2 : Z) : list (Z * Z * Z) :=
  flat_map (fun a => flat_map (fun b => map (fun c => (a, b, c)) (shift_range s2)) (shift_range s1)) (shift_range s0).

(** edge.py:134-143: the coordinates are repeated [s0*s1*s2] times and the shifts subtracted.  Numpy
    accepts equal numbers of columns, or a single shift, which it then repeats. *)
Definition columns (s0 s1 s2 : Z) : result (list (Z * Z * Z)) :=
  let copies := Z.to_nat (s0 * s1 * s2) in
  match frac_shifts s0 s1 s2 with
  | [t] => Ok (repeat t copies)
  | l => if length l =? copies then Ok l else Err ValueError
  end.

Section Matrix.
Variables (A B C : vec) (rcut : R).

(** edge.py:62-64: how many columns are within the cutoff. *)
Definition near (fi fj : vec) (t : Z * Z * Z) : bool :=
  let '(a, b, c) := t in
  if Rle_dec (sqrt (norm2 (comb A B C (vx fj - IZR a - vx fi) (vy fj - IZR b - vy fi) (vz fj - IZR c - vz fi)))) rcut then true else false.
Definition count_near (cols : list (Z * Z * Z)) (fi fj : vec) : Z := Z.of_nat (length (filter (near fi fj) cols)).

(** A matrix that is updated entry by entry. *)
Definition set_entry (m : nat -> nat -> Z) (i j : nat) (v : Z) : nat -> nat -> Z :=
  fun a b => if (a =? i) && (b =? j) then v else m a b.
Definition visit (cols : list (Z * Z * Z)) (fracs : list vec) (m : nat -> nat -> Z) (ij : nat * nat) : nat -> nat -> Z :=
  let '(i, j) := ij in
  match nth_error fracs i, nth_error fracs j with
  | Some fi, Some fj =>
      let c := count_near cols fi fj in
      if (0 <? c)%Z then set_entry (set_entry m i j c) j i c else m
  | _, _ => m
  end.
(** edge.py:58-59: the order of the visits. *)
Definition pairs (n : nat) : list (nat * nat) := flat_map (fun i => map (fun j => (i, j)) (seq i (n - i))) (seq 0 n).

(** edge.py:39-72 together with the constructor's assertions. *)
Definition get_adjacent_matrix (s0 s1 s2 : Z) (fracs : list vec) : result (list (list Z)) :=
  if factor_accepted s0 && factor_accepted s1 && factor_accepted s2 then
    bind (columns s0 s1 s2) (fun cols =>
    let n := length fracs in
    let m := fold_left (visit cols fracs) (pairs n) (fun _ _ => 0%Z) in
    Ok (map (fun i => map (fun j => (m i j - if (i =? j)%nat then 1 else 0)%Z) (seq 0 n)) (seq 0 n)))
  else Err AssertionError.
End Matrix.
