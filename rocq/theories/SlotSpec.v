(** Vocabulary for the slot layout. *)
From Verif Require Export Vec.
Open Scope nat_scope.

(** Slots are counted: all slots of centre 0, then of centre 1, ...; within a
    centre first the slots reserved for type 0, then for type 1, ... *)
Definition reserved (umax : list nat) : nat := list_sum umax.
Definition slot_of (umax : list nat) (i t p : nat) : nat := i * reserved umax + list_sum (firstn t umax) + p.

(** The [g] values of slot [q]. *)
Definition group {V} (g q : nat) (a : list V) : list V := firstn g (skipn (q * g) a).

(** The atom that is neighbour [j] of centre [i] in a flat table of width [w], and its type. *)
Definition neighbour (w : nat) (firstneigh : list nat) (i j : nat) : nat := nth (i * w + j) firstneigh 0.
Definition neighbour_type (w : nat) (firstneigh types : list nat) (i j : nat) : nat :=
  nth (neighbour w firstneigh i j) types 0.

(** The neighbours (as numbers in its list) of centre [i] that have type [t], in order. *)
Definition of_type (w : nat) (numneigh firstneigh types : list nat) (i t : nat) : list nat :=
  filter (fun j => neighbour_type w firstneigh types i j =? t) (seq 0 (nth i numneigh 0)).

(** How many earlier neighbours of centre [i] share the type of neighbour [j]. *)
Definition rank (w : nat) (firstneigh types : list nat) (i j : nat) : nat :=
  length (filter (fun j' => neighbour_type w firstneigh types i j' =? neighbour_type w firstneigh types i j) (seq 0 j)).

(** The tables fit together: one count per centre, entries to read for each
    counted neighbour, each naming an atom with a known type. *)
Definition table_ok (inum : nat) (numneigh firstneigh types umax : list nat) : Prop :=
  inum <= length numneigh /\
  forall i j, i < inum -> j < nth i numneigh 0 ->
    i * reserved umax + j < length firstneigh /\
    neighbour (reserved umax) firstneigh i j < length types /\
    neighbour_type (reserved umax) firstneigh types i j < length umax.

(** No centre has more neighbours of a type than reserved. *)
Definition enough_reserved (inum : nat) (numneigh firstneigh types umax : list nat) : Prop :=
  forall i t, i < inum -> t < length umax ->
    length (of_type (reserved umax) numneigh firstneigh types i t) <= nth t umax 0.

(** The point stored at position [k] of a flat coordinate array. *)
Definition point (x : list R) (k : nat) : vec := (nth (3 * k) x 0%R, nth (3 * k + 1) x 0%R, nth (3 * k + 2) x 0%R).
