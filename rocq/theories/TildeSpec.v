(** What the block descriptor is meant to contain. *)
From Verif Require Export Vec.
Open Scope nat_scope.

Section Blocks.
Context {V : Type}.
Variables (row : vec -> V) (zero : V).
Variables (inum : nat) (ilist numneigh : list nat) (firstneigh : list (list nat)) (x : list vec) (types : list nat).

Definition type_of (a : nat) : nat := nth a types 0.
Definition position (a : nat) : vec := nth a x (0, 0, 0)%R.
(** The neighbours of centre number [i], as atoms. *)
Definition neighbours (i : nat) : list nat := firstn (nth i numneigh 0) (nth i firstneigh []).
Definition neighbours_of_type (i na : nat) : list nat := filter (fun b => type_of b =? na) (neighbours i).
(** The numbers of the centres that are of a type. *)
Definition centres_of_type (ca : nat) : list nat := filter (fun i => type_of (nth i ilist 0) =? ca) (seq 0 inum).

(** One centre, one neighbour type: its neighbours in order, then empty places. *)
Definition padded (i na nn : nat) : list V :=
  map (fun b => row (vsub (position b) (position (nth i ilist 0)))) (neighbours_of_type i na)
  ++ repeat zero (nn - length (neighbours_of_type i na)).

(** The whole matrix: centres grouped by type, neighbour types side by side. *)
Definition whole (centres neighs nnl : list nat) : list (list V) :=
  flat_map (fun ca => map (fun i => flat_map (fun nb => padded i (fst nb) (snd nb)) (combine neighs nnl)) (centres_of_type ca)) centres.

(** The tables fit together. *)
Definition lists_ok : Prop :=
  inum <= length ilist /\ inum <= length numneigh /\ inum <= length firstneigh /\
  (forall i, i < inum -> nth i ilist 0 < length types /\ nth i ilist 0 < length x /\ nth i numneigh 0 <= length (nth i firstneigh [])) /\
  (forall i b, i < inum -> In b (neighbours i) -> b < length types /\ b < length x).
End Blocks.
