(** Specifications for the path in reciprocal space. *)
From Coq Require Import String Reals List ZArith.
From Verif Require Import Vec.
Import ListNotations.
Local Open Scope R_scope.

(** The name under which a point of the symmetry table is published. *)
Definition published (n m : string) : Prop :=
  (n = "\Gamma"%string /\ m = "G"%string) \/ (n <> "\Gamma"%string /\ m = n).

(** A table in which every point occurs once and no point is called G already. *)
Definition symmetry_table (d : list (string * vec)) : Prop :=
  NoDup (map fst d) /\ ~ In "G"%string (map fst d).

(** The published point [m] at [v] belongs to a material of dimension [k]. *)
Definition offered (k : Z) (d : list (string * vec)) (m : string) (v : vec) : Prop :=
  exists n, In (n, v) d /\ published n m /\ (k = 3%Z \/ (k = 2%Z /\ vz v = 0)).

(** [l'] is [l] without the entries that fail [P]. *)
Inductive selects {A} (P : A -> Prop) : list A -> list A -> Prop :=
| selects_nil : selects P [] []
| selects_keep x l l' : P x -> selects P l l' -> selects P (x :: l) (x :: l')
| selects_drop x l l' : ~ P x -> selects P l l' -> selects P (x :: l) l'.

(** [y] directly follows [x] in [l]. *)
Definition follows {A} (x y : A) (l : list A) : Prop := exists l1 l2, l = l1 ++ x :: y :: l2.

(** The length, in reciprocal space, of the straight line between two points given by
    fractional coordinates. *)
Definition true_length (b1 b2 b3 : vec) (u v : vec) : R :=
  sqrt (norm2 (comb b1 b2 b3 (vx v - vx u) (vy v - vy u) (vz v - vz u))).

(** The columns of the matrix with rows [b1], [b2], [b3]. *)
Definition col1 (b1 b2 b3 : vec) : vec := (vx b1, vx b2, vx b3).
Definition col2 (b1 b2 b3 : vec) : vec := (vy b1, vy b2, vy b3).
Definition col3 (b1 b2 b3 : vec) : vec := (vz b1, vz b2, vz b3).

(** The lattices for which multiplying entry by entry gives lengths. *)
Definition aligned (b1 b2 b3 : vec) : Prop :=
  dot b1 b2 = 0 /\ dot b1 b3 = 0 /\ dot b2 b3 = 0 /\
  norm2 b1 = norm2 (col1 b1 b2 b3) /\ norm2 b2 = norm2 (col2 b1 b2 b3) /\ norm2 b3 = norm2 (col3 b1 b2 b3).
