(** Vocabulary for averages of bonds, angles and displacements. *)
From Verif Require Import Vec SeModel NeighModel NeighSpec.
Local Open Scope R_scope.

(** The average of a list; there is none for the empty list. *)
Definition average (l : list R) : option R :=
  match l with [] => None | _ => Some (fold_right Rplus 0 l / INR (length l)) end.

(** Every bond of the infinite crystal, per cell: a site of element [a1] and an image, of element
    [a2], at a distance that is positive and at most [rcut]. *)
Definition bond (A B C : vec) (sites : list (Z * vec)) (rcut : R) (a1 a2 : Z) (cn : (Z * vec) * (Z * vec)) : Prop :=
  In (fst cn) sites /\ fst (fst cn) = a1 /\ (exists m, image_of_site A B C sites (snd cn) m) /\ fst (snd cn) = a2 /\
  0 < vdist (snd (snd cn)) (snd (fst cn)) <= rcut.
Definition bond_length (cn : (Z * vec) * (Z * vec)) : R := vdist (snd (snd cn)) (snd (fst cn)).
(** [keys] lists the bonds once each. *)
Definition all_bonds (A B C : vec) (sites : list (Z * vec)) (rcut : R) (a1 a2 : Z) (keys : list ((Z * vec) * (Z * vec))) : Prop :=
  NoDup keys /\ forall cn, In cn keys <-> bond A B C sites rcut a1 a2 cn.

(** The bonds shown by a table row: the first entry is the centre, padding has distance zero. *)
Definition keep_bond (a2 : Z) (p : Z * R) : bool := (fst p =? a2)%Z && (if Req_EM_T (snd p) 0 then false else true).
Definition row_bonds (a1 a2 : Z) (row : list Z * list R * list vec) : list R :=
  match combine (fst (fst row)) (snd (fst row)) with
  | [] => []
  | p :: rest => if (fst p =? a1)%Z then map snd (filter (keep_bond a2) rest) else []
  end.
(** Rows with a centre and as many distances as elements. *)
Definition rectangular (row : list Z * list R * list vec) : Prop := fst (fst row) <> [] /\ length (fst (fst row)) = length (snd (fst row)).

(** The squared distance each atom moved between two frames. *)
Definition squared_moves (before after : list vec) : list R := map (fun p => vdist (snd p) (fst p) ^ 2) (combine before after).
(** The point such that the vectors from it to the atoms add up to nothing. *)
Definition is_centroid (s : list vec) (c : vec) : Prop := fold_right vadd (0, 0, 0) (map (fun p => vsub p c) s) = (0, 0, 0).

(** [a] (in degrees) is the angle between two vectors. *)
Definition is_angle (u v : vec) (a : R) : Prop := 0 <= a <= 180 /\ dot u v = vnorm u * vnorm v * cos (a * (PI / 180)).

(** The neighbours of a table row: its entries that are not the zero vector used as padding. *)
Inductive real_entries : list vec -> list vec -> Prop :=
| nb_nil : real_entries [] []
| nb_pad row l : real_entries row l -> real_entries ((0, 0, 0) :: row) l
| nb_real (v : vec) row l : v <> (0, 0, 0) -> real_entries row l -> real_entries (v :: row) (v :: l).

(** All pairs of different positions of a list, each once. *)
Fixpoint unordered {A} (l : list A) : list (A * A) :=
  match l with [] => [] | x :: r => map (fun y => (x, y)) r ++ unordered r end.

(** The order parameter of tetrahedral coordination: 1 for the six angles of a perfect tetrahedron. *)
Definition tetrahedral_order (angles : list R) : R := 1 - 3 / 8 * fold_right Rplus 0 (map (fun a => (1 / 3 + cos (a * (PI / 180))) ^ 2) angles).
