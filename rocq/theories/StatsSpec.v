(** Independent vocabulary for sample statistics. *)
From Verif Require Import Base.
From Coq Require Export Reals.
Open Scope R_scope.

Fixpoint total (l : list R) : R := match l with [] => 0 | x :: r => x + total r end.
Definition mean (l : list R) : R := total l / INR (length l).
(** Population standard deviation. *)
Definition deviation (l : list R) : R := sqrt (mean (map (fun x => (x - mean l) * (x - mean l)) l)).

(** The assembled matrix: for every centre element in order, one row per centre atom, which is the
    concatenation of that atom's rows in the blocks of the columns. *)
Definition assembled {F} (blocks : Z -> Z -> list (list F)) (centers columns : list Z) (out : list (list F)) : Prop :=
  exists parts, out = concat parts /\
  Forall2 (fun c part => forall i row, nth_error part i = Some row <->
    exists pieces, Forall2 (fun n piece => nth_error (blocks c n) i = Some piece) columns pieces /\ row = concat pieces) centers parts.
