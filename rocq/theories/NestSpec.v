(** What a nested array is for its users, independent of the loops. *)
From Verif Require Import HeapModel.

(** An index within the sizes. *)
Definition within (dims idx : list nat) : Prop := Forall2 (fun i n => (i < n)%nat) idx dims.

(** The value of the last assignment to [idx], if any. *)
Fixpoint last_written (idx : list nat) (l : list (list nat * Z)) (old : option Z) : option Z :=
  match l with
  | [] => old
  | (j, v) :: r => last_written idx r (if list_eq_dec Nat.eq_dec j idx then Some v else old)
  end.

(** What reading an element gives: an element never assigned has no value. *)
Definition gives (r : hres Z) (v : option Z) : Prop :=
  r = match v with Some z => HOk z | None => HErr Uninitialised end.

(** Number of blocks: one for each prefix of an index. *)
Fixpoint block_count (dims : list nat) : nat :=
  match dims with
  | [] => 0
  | n :: r => 1 + n * block_count r
  end.

Definition alive (h : heap) (b : nat) : Prop := exists c, nth_error h b = Some (Some c).
(** Nothing was released or changed among the older blocks, and every newer block is released. *)
Definition restored (h h' : heap) : Prop :=
  firstn (length h) h' = h /\ forall b, (length h <= b)%nat -> ~ alive h' b.
Definition leaks (h h' : heap) : Prop := exists b, (length h <= b)%nat /\ alive h' b.

(** All indices, in the order of the loops. *)
Fixpoint indices (dims : list nat) : list (list nat) :=
  match dims with
  | [] => [[]]
  | n :: r => flat_map (fun i => map (cons i) (indices r)) (seq 0 n)
  end.
