(** Vocabulary for the properties of the combinations of level.h, independent of the model. *)
From Coq Require Import List Arith Sorted Permutation.
Import ListNotations.

(** The level of a moment and of a combination. *)
Definition moment_level (p : nat * nat) : nat := 2 + 4 * fst p + snd p.
Definition total_level (c : list (nat * nat)) : nat := list_sum (map moment_level c).

Definition moment_dec (p q : nat * nat) : {p = q} + {p <> q}.
Proof. decide equality; apply Nat.eq_dec. Defined.
Definition comb_dec (c d : list (nat * nat)) : {c = d} + {c <> d} := list_eq_dec moment_dec c d.
(** How often a combination is listed. *)
Definition times (c : list (nat * nat)) (l : list (list (nat * nat))) : nat := count_occ comb_dec l c.

(** The number of neighbouring moments in non-descending order of level. *)
Fixpoint ascents (c : list (nat * nat)) : nat :=
  match c with
  | p :: ((q :: _) as r) => (if moment_level p <=? moment_level q then 1 else 0) + ascents r
  | _ => 0
  end.

(** Every non-zero tensor rank occurs an even number of times. *)
Definition pairs_up (c : list (nat * nat)) : Prop := forall nu, nu <> 0 -> Nat.Even (count_occ Nat.eq_dec (map snd c) nu).

(** [indices] is an arrangement of the positions of [l] in which levels do not decrease. *)
Definition arranges (l : list (list (nat * nat))) (indices : list nat) : Prop :=
  Permutation indices (seq 0 (length l)) /\
  forall i j a b c d, i < j -> nth_error indices i = Some a -> nth_error indices j = Some b -> nth_error l a = Some c -> nth_error l b = Some d ->
  total_level c <= total_level d.
