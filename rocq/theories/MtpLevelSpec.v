(** What the enumeration of moment combinations is meant to deliver. *)
From Verif Require Export Base.
From Coq Require Export Sorting.Permutation.

(** The level of a moment and of a combination of moments. *)
Definition moment_level (p : nat * nat) : nat := 2 + 4 * fst p + snd p.
Definition total_level (c : list (nat * nat)) : nat := list_sum (map moment_level c).

(** What [std::sort] guarantees for a comparison by descending nu: a
    rearrangement without an ascent.  Nothing is said about equal elements. *)
Definition descending (c : list (nat * nat)) : Prop :=
  forall i j p q, i < j -> nth_error c i = Some p -> nth_error c j = Some q -> snd q <= snd p.

Definition sorts_by_nu (sort : list (nat * nat) -> list (nat * nat)) : Prop :=
  forall c, Permutation c (sort c) /\ descending (sort c).

(** Position [i] of a list of combinations holds a rearrangement of [m]. *)
Definition lists_at (cs : list (list (nat * nat))) (i : nat) (m : list (nat * nat)) : Prop :=
  exists c, nth_error cs i = Some c /\ Permutation m c.

(** Some combination, up to order, occurs at two places. *)
Definition repeats (cs : list (list (nat * nat))) : Prop :=
  exists i j m, i <> j /\ lists_at cs i m /\ lists_at cs j m.
