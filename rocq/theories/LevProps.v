(** Properties of the enumeration and reduction of moment combinations (source/descriptor/mtp/include/level.h). *)
From Verif Require Import LevModel LevSpec LevProofs.
From Coq Require Import List Arith Permutation Lia.
Import ListNotations.

(** ** C74 Every combination up to the level is enumerated once, except one *)

(** No combination is listed twice, and the listed ones are those of at most the given level whose
    number of moments is not exactly half the level. *)
Theorem C74_enumeration : forall m : nat,
  NoDup (calc_redundant_combinations m) /\
  forall c, In c (calc_redundant_combinations m) <-> total_level c <= m /\ 2 * length c <> m.
Proof. exact enumeration. Qed.
Print Assumptions C74_enumeration.

(** The only combination of an allowed level that is missing: for an even level [m], the product of
    [m/2] moments (0,0), whose level is exactly [m]. *)
Theorem C74_missing : forall (m : nat) (c : list (nat * nat)), total_level c <= m ->
  (~ In c (calc_redundant_combinations m) <-> Nat.Even m /\ c = repeat (0, 0) (m / 2)).
Proof. exact missing. Qed.
Print Assumptions C74_missing.

(** For level 4: the empty combination, three single moments; (0,0),(0,0) has level 4 and is missing. *)
Example C74_case : calc_redundant_combinations 4 = [[]; [(0, 0)]; [(0, 1)]; [(0, 2)]] /\ total_level [(0, 0); (0, 0)] = 4.
Proof. split; reflexivity. Qed.
(** For level 5 nothing is missing. *)
Example C74_case_odd : calc_redundant_combinations 5 = [[]; [(0, 0)]; [(0, 1)]; [(0, 2)]; [(0, 3)]; [(0, 0); (0, 0)]; [(0, 0); (0, 1)]; [(0, 1); (0, 0)]].
Proof. reflexivity. Qed.

(** ** C75 What the reduction keeps, and how often *)

(** With the reduction switched off, the list is stored as given. *)
Theorem C75_untouched : forall l : list (list (nat * nat)), combinations l false = Ok l.
Proof. exact untouched. Qed.
Print Assumptions C75_untouched.

(** With the reduction, an empty combination makes the code read outside an array.  Otherwise a
    combination in which some non-zero rank occurs an odd number of times disappears, and any other
    is kept as often as it was given times its number of neighbouring moments in order. *)
Theorem C75_kept : forall l : list (list (nat * nat)),
  (In [] l -> combinations l true = Err IndexError) /\
  (~ In [] l -> exists out, combinations l true = Ok out /\
    forall c, (pairs_up c -> times c out = times c l * ascents c) /\ (~ pairs_up c -> times c out = 0)).
Proof. exact kept. Qed.
Print Assumptions C75_kept.

(** A combination in order of level is therefore kept (number of moments - 1) times. *)
Theorem C75_in_order : forall c : list (nat * nat),
  (forall i p q, nth_error c i = Some p -> nth_error c (S i) = Some q -> moment_level p <= moment_level q) -> ascents c = length c - 1.
Proof. exact ascents_sorted. Qed.
Print Assumptions C75_in_order.

(** "Each combination that can be contracted is kept once" fails: a triple is doubled, a single
    scalar moment is dropped. *)
Theorem C75_kept_once_refuted : exists l out, combinations l true = Ok out /\
  times [(0, 0); (0, 0); (0, 0)] l = 1 /\ times [(0, 0); (0, 0); (0, 0)] out = 2 /\
  times [(0, 0)] l = 1 /\ pairs_up [(0, 0)] /\ times [(0, 0)] out = 0.
Proof. exact built_once_refuted. Qed.
Print Assumptions C75_kept_once_refuted.

(** "Two orders of the same moments are not both kept" fails. *)
Theorem C75_orders_refuted : exists l out, combinations l true = Ok out /\
  1 <= times [(0, 0); (1, 0); (0, 0)] out /\ 1 <= times [(0, 0); (0, 0); (1, 0)] out.
Proof. exact reordered_refuted. Qed.
Print Assumptions C75_orders_refuted.

(** The enumerated combinations of any positive level can never be reduced: they contain the empty one. *)
Theorem C75_enumerated_fails : forall m : nat, 0 < m -> combinations (calc_redundant_combinations m) true = Err IndexError.
Proof. exact empty_listed. Qed.
Print Assumptions C75_enumerated_fails.

Example C75_case : combinations [[(0, 0); (0, 1)]; [(0, 1); (0, 1)]; [(1, 0); (0, 0)]; [(0, 1); (0, 0); (0, 1)]] true = Ok [[(0, 1); (0, 1)]; [(0, 1); (0, 0); (0, 1)]].
Proof. reflexivity. Qed.

(** ** C76 Arranging the combinations by level *)

(** The comparison given to the sort is: strictly lower total level. *)
Theorem C76_comparison : forall (l : list (list (nat * nat))) i j c d, nth_error l i = Some c -> nth_error l j = Some d ->
  exists b, sort_basis l i j = Ok b /\ (b = true <-> total_level c < total_level d).
Proof. exact basis_ok. Qed.
Print Assumptions C76_comparison.

(** With sorted positions the result is in order of level, but it is reduced again: every
    combination is kept as often as before times its number of neighbouring moments in order. *)
Theorem C76_arranged : forall (l : list (list (nat * nat))) indices, ~ In [] l -> arranges l indices ->
  exists out, arrange l indices = Ok out /\
  (forall i j c d, i < j -> nth_error out i = Some c -> nth_error out j = Some d -> total_level c <= total_level d) /\
  forall c, (pairs_up c -> times c out = times c l * ascents c) /\ (~ pairs_up c -> times c out = 0).
Proof. exact arranged. Qed.
Print Assumptions C76_arranged.

(** "Arranging permutes" therefore fails: two triples become four. *)
Example C76_case :
  arranges [[(0, 2); (0, 2)]; [(0, 0); (0, 0); (0, 0)]; [(0, 0); (0, 0); (0, 0)]] [1; 2; 0] /\
  arrange [[(0, 2); (0, 2)]; [(0, 0); (0, 0); (0, 0)]; [(0, 0); (0, 0); (0, 0)]] [1; 2; 0] =
    Ok [[(0, 0); (0, 0); (0, 0)]; [(0, 0); (0, 0); (0, 0)]; [(0, 0); (0, 0); (0, 0)]; [(0, 0); (0, 0); (0, 0)]; [(0, 2); (0, 2)]].
Proof.
  split; [|reflexivity]. split; [apply (Permutation_sym (Permutation_cons_app [1; 2] [] 0 (Permutation_refl _)))|].
  intros i j a b c d L Ha Hb Hc Hd.
  destruct i as [|[|[|i]]]; [| | |destruct i; discriminate]; (destruct j as [|[|[|j]]]; [| | |destruct j; discriminate]);
    try lia; cbn in Ha, Hb; injection Ha as <-; injection Hb as <-; cbn in Hc, Hd; injection Hc as <-; injection Hd as <-; cbv; lia.
Qed.
