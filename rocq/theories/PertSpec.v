(** Vocabulary for the properties of the perturbation of structures, independent of the model:
    vectors of R^3 given by coordinates, cells by three edge vectors. *)
From Coq Require Import Reals List.
Local Open Scope R_scope.

Definition R3 : Type := (R * R * R)%type.
Definition inner (u v : R3) : R := let '(a, b, c) := u in let '(x, y, z) := v in a * x + b * y + c * z.
Definition plus3 (u v : R3) : R3 := let '(a, b, c) := u in let '(x, y, z) := v in (a + x, b + y, c + z).
Definition times3 (k : R) (u : R3) : R3 := let '(a, b, c) := u in (k * a, k * b, k * c).
Definition length3 (u : R3) : R := sqrt (inner u u).
(** Signed volume of the box spanned by three vectors. *)
Definition volume (u v w : R3) : R :=
  let '(a, b, c) := u in let '(d, e, f) := v in let '(g, h, i) := w in a * (e * i - f * h) - b * (d * i - f * g) + c * (d * h - e * g).

(** A rotation: linear, keeps inner products and orientation. *)
Definition linear (f : R3 -> R3) : Prop := forall k u v, f (plus3 (times3 k u) v) = plus3 (times3 k (f u)) (f v).
Definition rotation (f : R3 -> R3) : Prop :=
  linear f /\ (forall u v, inner (f u) (f v) = inner u v) /\ forall u v w, volume (f u) (f v) (f w) = volume u v w.

(** The strain 1 + e with the six numbers of the documentation: diagonal, then yz, xz, xy. *)
Definition strain (xx yy zz yz xz xy : R) (v : R3) : R3 :=
  let '(x, y, z) := v in
  (x + (xx * x + xy * y + xz * z), y + (xy * x + yy * y + yz * z), z + (xz * x + yz * y + zz * z)).

(** First vector along x, second in the upper half of the xy plane, third in the upper half space. *)
Definition standard_cell (a b c : R3) : Prop :=
  let '(ax, ay, az) := a in let '(bx, by_, bz) := b in let '(cx, cy, cz) := c in
  ay = 0 /\ az = 0 /\ bz = 0 /\ 0 < ax /\ 0 < by_ /\ 0 < cz.

(** [q], [r] decompose [m]: the columns of [q] are orthonormal, [r] is zero below the diagonal, and
    the product is [m]; matrices are given by their rows. *)
Definition column (k : nat) (m : R3 * R3 * R3) : R3 :=
  let '((a, b, c), (d, e, f), (g, h, i)) := m in match k with 0%nat => (a, d, g) | 1%nat => (b, e, h) | _ => (c, f, i) end.
Definition orthonormal (u v w : R3) : Prop :=
  inner u u = 1 /\ inner v v = 1 /\ inner w w = 1 /\ inner u v = 0 /\ inner u w = 0 /\ inner v w = 0.
Definition decomposes (m q r : R3 * R3 * R3) : Prop :=
  orthonormal (column 0 q) (column 1 q) (column 2 q) /\
  let '((r00, r01, r02), (r10, r11, r12), (r20, r21, r22)) := r in
  r10 = 0 /\ r20 = 0 /\ r21 = 0 /\
  column 0 m = times3 r00 (column 0 q) /\
  column 1 m = plus3 (times3 r01 (column 0 q)) (times3 r11 (column 1 q)) /\
  column 2 m = plus3 (plus3 (times3 r02 (column 0 q)) (times3 r12 (column 1 q))) (times3 r22 (column 2 q)).
(** A routine that decomposes every matrix of non-zero determinant. *)
Definition decomposition (qr : R3 * R3 * R3 -> (R3 * R3 * R3) * (R3 * R3 * R3)) : Prop :=
  forall m, volume (column 0 m) (column 1 m) (column 2 m) <> 0 -> decomposes m (fst (qr m)) (snd (qr m)).

(** The strain drawn for a fraction [f] and six random numbers: diagonal parts within [f] of zero, the others within [f/2]. *)
Definition drawn (f u0 u1 u2 u3 u4 u5 : R) : R3 -> R3 :=
  strain (f * (2 * u0 - 1)) (f * (2 * u1 - 1)) (f * (2 * u2 - 1)) (f / 2 * (2 * u3 - 1)) (f / 2 * (2 * u4 - 1)) (f / 2 * (2 * u5 - 1)).
