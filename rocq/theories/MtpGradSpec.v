(** Vocabulary for the gradients of the moment tensor descriptor. *)
From Verif Require Export Vec ChebSpec MtpValueSpec SeSpec.
Local Open Scope R_scope.

(** An index that exists, counted from the front or (negative) from the end. *)
Definition present {A} (l : list A) (j : Z) : Prop := (- Z.of_nat (length l) <= j < Z.of_nat (length l))%Z.
(** As many coefficient rows as radial functions and pairs of species, each as long as the radial
    basis; species below their number; the centre and the neighbours exist.  Unused entries of a
    neighbour row (index -1) are allowed. *)
Definition fits (size nmus nt : nat) (coeffs : list (list R)) (types : list Z) (iidx : Z) (nbs : list (Z * vec)) : Prop :=
  length coeffs = (nmus * nt * nt)%nat /\ Forall (fun c => length c = size) coeffs /\
  Forall (fun z => (0 <= z < Z.of_nat nt)%Z) types /\ present types iidx /\ Forall (fun nb => present types (fst nb)) nbs.
(** Not exactly at the inner radius, where the radial functions jump. *)
Definition regular (rcut_smooth : R) (r : vec) : Prop := sqrt (norm2 r) <> rcut_smooth /\ (r = (0, 0, 0) -> 0 < rcut_smooth).
(** Combinations of existing moments that leave no direction over. *)
Definition complete (nmus : nat) (c : list (nat * nat)) : Prop := Forall (fun p => (fst p < nmus)%nat) c /\ leaves 0 (map snd c) 0.

(** Neighbours and coefficients that depend on time. *)
Definition nbs_at (t : R) (nbs : list (Z * (R -> vec))) : list (Z * vec) := map (fun nb => (fst nb, snd nb t)) nbs.
Definition rows_at (t : R) (cs : list (list (R -> R))) : list (list R) := map (map (fun f => f t)) cs.
(** [v] is the velocity of [p] at time [x]. *)
Definition moves (x : R) (p : R -> vec) (v : vec) : Prop :=
  derivable_pt_lim (fun t => vx (p t)) x (vx v) /\ derivable_pt_lim (fun t => vy (p t)) x (vy v) /\ derivable_pt_lim (fun t => vz (p t)) x (vz v).
(** The two sums of products. *)
Definition along (grads vs : list vec) : R := sum_over (fun p => dot (fst p) (snd p)) (combine grads vs).
Definition along_rows (rows ds : list (list R)) : R := sum_over (fun p => weighted (fst p) (snd p)) (combine rows ds).

(** Neighbour [a] with coordinate [k] set to [t]; entry [n] of row [k] set to [t]. *)
Fixpoint nudge {A} (a : nat) (f : A -> A) (l : list A) : list A :=
  match l, a with [], _ => [] | x :: r, 0%nat => f x :: r | x :: r, S a' => x :: nudge a' f r end.
Definition shift_nb (a k : nat) (t : R) (nbs : list (Z * vec)) : list (Z * vec) := nudge a (fun nb => (fst nb, with_coord k (snd nb) t)) nbs.
Definition set_coeff (k n : nat) (t : R) (rows : list (list R)) : list (list R) := nudge k (nudge n (fun _ => t)) rows.

(** The total moment of the forces. *)
Definition torque (nbs : list (Z * vec)) (grads : list vec) : vec :=
  fold_right vadd (0, 0, 0) (map (fun p => cross (snd (fst p)) (snd p)) (combine nbs grads)).
(** Outside the range of the radial functions. *)
Definition outside (rcut rcut_smooth : R) (r : vec) : Prop := sqrt (norm2 r) < rcut_smooth \/ rcut <= sqrt (norm2 r).
