(** Vocabulary for the descriptor properties. *)
From Verif Require Export Vec.
Open Scope R_scope.

(** The k-th coordinate of a point, and the point with it replaced. *)
Definition coord (k : nat) (p : vec) : R := match k with 0%nat => vx p | 1%nat => vy p | _ => vz p end.
Definition with_coord (k : nat) (p : vec) (t : R) : vec :=
  match k with 0%nat => (t, vy p, vz p) | 1%nat => (vx p, t, vz p) | _ => (vx p, vy p, t) end.

(** [l] is the partial derivative of [f] at [p] along axis [k]. *)
Definition partial (k : nat) (f : vec -> R) (p : vec) (l : R) : Prop :=
  derivable_pt_lim (fun t => f (with_coord k p t)) (coord k p) l.

(** Entry [a] of a row, entry [a, k] of a table. *)
Definition entry (a : nat) (row : list R) : R := nth a row 0.
Definition entry2 (a k : nat) (t : list (list R)) : R := nth k (nth a t []) 0.
