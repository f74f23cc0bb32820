(** Properties C53-C56: the combinations of moments of the moment tensor potential. *)
From Verif Require Import Base MtpLevelModel MtpLevelSpec MtpLevelProofs.

(** The demand on the sorting function can be met. *)
Example sort_exists : sorts_by_nu ssort.
Proof. exact ssort_contract. Qed.

(** ** C53 *)

(** Everything enumerated has the wanted total level, is ordered by descending
    nu, and uses no moment below the starting level. *)
Theorem C53_sound :
  forall sort, sorts_by_nu sort -> forall aim smu snu c, In c (get_all_schemes4lev sort aim smu snu) ->
  total_level c = aim /\ descending c /\ forall p, In p c -> moment_level (smu, snu) <= moment_level p.
Proof. exact schemes_sound. Qed.
Print Assumptions C53_sound.

(** Every such multiset is enumerated. *)
Theorem C53_complete :
  forall sort, sorts_by_nu sort -> forall aim smu snu m, total_level m = aim ->
  (forall p, In p m -> moment_level (smu, snu) <= moment_level p) ->
  exists c, In c (get_all_schemes4lev sort aim smu snu) /\ Permutation m c.
Proof. exact schemes_complete. Qed.
Print Assumptions C53_complete.

Example C53_case : total_level [(0, 1); (1, 0); (0, 0)] = 11 /\ get_all_schemes4lev ssort 5 0 0 = [[(0, 1); (0, 0)]; [(0, 3)]].
Proof. split; reflexivity. Qed.

(** ** C54 *)

(** A multiset whose moments of equal level are equal is listed exactly once. *)
Theorem C54_once :
  forall sort, sorts_by_nu sort -> forall aim m, total_level m = aim ->
  (forall p q, In p m -> In q m -> moment_level p = moment_level q -> p = q) ->
  exists i, lists_at (get_all_schemes4lev sort aim 0 0) i m /\
  forall j, lists_at (get_all_schemes4lev sort aim 0 0) j m -> j = i.
Proof. exact listed_once. Qed.
Print Assumptions C54_once.

(** Any other is listed at least twice. *)
Theorem C54_more_than_once :
  forall sort, sorts_by_nu sort -> forall aim m p q, total_level m = aim ->
  In p m -> In q m -> p <> q -> moment_level p = moment_level q ->
  exists i j, i <> j /\ lists_at (get_all_schemes4lev sort aim 0 0) i m /\ lists_at (get_all_schemes4lev sort aim 0 0) j m.
Proof. exact listed_twice. Qed.
Print Assumptions C54_more_than_once.

(** The basis contains a repeated combination exactly from maximal level 18 on. *)
Theorem C54_basis_repeats_iff :
  forall sort, sorts_by_nu sort -> forall L, repeats (build_combs sort L) <-> (18 <= L)%Z.
Proof. exact build_repeats. Qed.
Print Assumptions C54_basis_repeats_iff.

Example C54_case : total_level [(0, 4); (1, 0)] = 12 /\ moment_level (0, 4) = moment_level (1, 0).
Proof. split; reflexivity. Qed.

(** ** C55 *)

(** Every combination of the basis multiplies out to a scalar, with no failed assertion. *)
Theorem C55_scalar :
  forall sort, sorts_by_nu sort -> forall L c, In c (build_combs sort L) -> contract_dims c = Ok 0.
Proof. exact basis_contracts. Qed.
Print Assumptions C55_scalar.

(** The same for any combination ordered by descending nu that passes the test. *)
Theorem C55_kept_scalar :
  forall c, is_kept c = true -> descending c -> contract_dims c = Ok 0.
Proof. exact kept_contracts. Qed.
Print Assumptions C55_kept_scalar.

Example C55_case : is_kept [(1, 3); (0, 2); (0, 1)] = true /\ contract_dims [(1, 3); (0, 2); (0, 1)] = Ok 0 /\
  contract_dims [(0, 2); (0, 1); (0, 3)] = Err AssertionError.
Proof. repeat split; reflexivity. Qed.

(** The converse fails: at level 20 a combination that multiplies out to a scalar is thrown away. *)
Theorem C55_all_scalars_kept_refuted :
  forall sort, sorts_by_nu sort -> exists c, In c (get_all_schemes4lev sort 20 0 0) /\ Permutation missed_comb c /\
  contract_dims c = Ok 0 /\ is_kept c = false.
Proof. exact missed. Qed.
Print Assumptions C55_all_scalars_kept_refuted.

(** ** C56 *)

(** The radial channels that occur are exactly 0 .. nmus - 1. *)
Theorem C56_channels :
  forall sort, sorts_by_nu sort -> forall L, (2 <= L)%Z -> forall mu,
  (exists c p, In c (build_combs sort L) /\ In p c /\ fst p = mu) <-> (Z.of_nat mu < nmus L)%Z.
Proof. exact nmus_values. Qed.
Print Assumptions C56_channels.

(** The count by inspection agrees with the formula. *)
Theorem C56_check_agrees :
  forall sort, sorts_by_nu sort -> forall L, (2 <= L)%Z -> Z.of_nat (nmus_check sort L) = nmus L.
Proof. exact nmus_check_eq. Qed.
Print Assumptions C56_check_agrees.

(** Below level 2 nothing is kept, though the formula says one channel at levels -1 to 1. *)
Theorem C56_below_two :
  forall sort, sorts_by_nu sort -> forall L, (L < 2)%Z -> build_combs sort L = [] /\ nmus_check sort L = 0 /\ ((-2 < L)%Z -> nmus L = 1%Z).
Proof. exact below_two_all. Qed.
Print Assumptions C56_below_two.

Example C56_case : nmus 18 = 5%Z /\ nmus 17 = 4%Z.
Proof. split; reflexivity. Qed.
