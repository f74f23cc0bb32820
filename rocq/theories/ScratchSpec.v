(** What the memory should look like, independent of the loops. *)
From Verif Require Import HeapModel.
From Verif Require Export NestSpec TildeSpec.
From Verif Require Import ScratchModel.
Open Scope nat_scope.

(** The blocks in use. *)
Definition in_use (h : heap) : list nat := filter (fun b => match nth_error h b with Some (Some _) => true | _ => false end) (seq 0 (length h)).

Definition zeros : list nat -> Z := fun _ => 0%Z.
(** The array [b] of the sizes of [t] has the elements of the matrix [t]. *)
Definition holds (h : heap) (b : nat) (leaf : list nat) (t : list (list (list nat -> Z))) : Prop :=
  forall r c idx, r < length t -> c < length (nth r t []) -> within leaf idx ->
    read_at h b (r :: c :: idx) = HOk (nth c (nth r t []) zeros idx).

(** Arguments that fit together, with room for all neighbours. *)
Definition fits (a : arguments) : Prop :=
  lists_ok (a_inum a) (a_ilist a) (a_numneigh a) (a_firstneigh a) (a_x a) (a_types a) /\ length (a_neighs a) = length (a_nnl a) /\
  forall ca na nn i, In ca (a_centres a) -> In (na, nn) (combine (a_neighs a) (a_nnl a)) -> In i (centres_of_type (a_inum a) (a_ilist a) (a_types a) ca) ->
    length (neighbours_of_type (a_numneigh a) (a_firstneigh a) (a_types a) i na) <= nn.
(** The matrix, and its numbers of rows and columns. *)
Definition matrix (row : vec -> list nat -> Z) (a : arguments) : list (list (list nat -> Z)) :=
  whole row zeros (a_inum a) (a_ilist a) (a_numneigh a) (a_firstneigh a) (a_x a) (a_types a) (a_centres a) (a_neighs a) (a_nnl a).
Definition rows_of (a : arguments) : nat := list_sum (map (fun ca => length (centres_of_type (a_inum a) (a_ilist a) (a_types a) ca)) (a_centres a)).
Definition cols_of (a : arguments) : nat := list_sum (a_nnl a).
Definition sized (a : arguments) (n m : nat) : Prop := fits a /\ n = rows_of a /\ m = cols_of a.
Definition careful (c : call) : Prop :=
  match c with Generate a n m | Deriv a n m | GenerateInto a n m | DerivInto a n m => sized a n m end.
Definition fills_derivatives (c : call) : bool := match c with DerivInto _ _ _ => true | _ => false end.
