(** Properties of the moment tensor descriptor values. *)
From Verif Require Import MtpValueModel MtpValueSpec MtpValueProofs.
From Coq Require Import Permutation.
Local Open Scope R_scope.

(** ** C67 *)

(** A rotation or reflection of all neighbours leaves every basis value, and every failure, as it
    is. *)
Theorem C67_rotation_invariant : forall size rcut rcut_smooth old ntypes coeffs, sized size old ->
  forall q types iidx nbs c, keeps_length q ->
  basis_value size rcut rcut_smooth old ntypes coeffs types iidx (move (apply_map q) nbs) c =
  basis_value size rcut rcut_smooth old ntypes coeffs types iidx nbs c.
Proof. intros size rcut rcut_smooth old ntypes coeffs S0. exact (value_rotation size rcut rcut_smooth old S0 ntypes coeffs). Qed.
Print Assumptions C67_rotation_invariant.

(** The order in which the neighbours are listed does not matter. *)
Theorem C67_order_invariant : forall size rcut rcut_smooth old ntypes coeffs types iidx nbs nbs' c v, Permutation nbs nbs' ->
  (basis_value size rcut rcut_smooth old ntypes coeffs types iidx nbs c = Ok v <->
   basis_value size rcut rcut_smooth old ntypes coeffs types iidx nbs' c = Ok v).
Proof. exact value_perm. Qed.
Print Assumptions C67_order_invariant.

(** The value of a combination whose later members use up the directions of the first, in closed
    form: a sum over neighbours a of the radial factor of a times, for every later member, the
    sum over neighbours b of its radial factor and a power of the scalar product of a and b. *)
Theorem C67_group_formula : exists V : nat -> R -> R, chebyshev V /\
  forall size nmus nt rc rs old row types i nbs mu rest, sized size old -> well_posed size nmus nt row types i nbs ->
  (mu < nmus)%nat -> Forall (fun p => (fst p < nmus)%nat) rest ->
  basis_value size rc rs old (Z.of_nat nt) (coeff_table row nmus nt) (species types) (Z.of_nat i) (listed nbs) ((mu, list_sum (map snd rest)) :: rest)
  = Ok (group_value (factor V rc rs row types i) nbs mu rest).
Proof. exact group_formula. Qed.
Print Assumptions C67_group_formula.

(** A value exists exactly when the contractions leave no direction over. *)
Theorem C67_defined : forall size nmus nt rc rs old row, sized size old ->
  forall types i nbs, well_posed size nmus nt row types i nbs ->
  forall c, Forall (fun p => (fst p < nmus)%nat) c ->
  ((exists v, basis_value size rc rs old (Z.of_nat nt) (coeff_table row nmus nt) (species types) (Z.of_nat i) (listed nbs) c = Ok v) <->
   leaves 0 (map snd c) 0).
Proof. exact value_defined. Qed.
Print Assumptions C67_defined.

Example C67_case_maps : keeps_length ((0, -1, 0), (1, 0, 0), (0, 0, 1)) /\ apply_map ((0, -1, 0), (1, 0, 0), (0, 0, 1)) (3, 4, 5) = (-4, 3, 5).
Proof. exact ex_quarter_turn. Qed.
Example C67_case_mirror : keeps_length ((-1, 0, 0), (0, 1, 0), (0, 0, 1)) /\ ~ keeps_length ((2, 0, 0), (0, 1, 0), (0, 0, 1)).
Proof. exact ex_mirror. Qed.
Example C67_case_posed : well_posed 1 1 1 one_row [0; 0; 0]%nat 0%nat [(1%nat, (5, 0, 0)); (2%nat, (3, 4, 0))].
Proof. exact ex_posed. Qed.
Example C67_case_value :
  basis_value 1 6 4 ([0], [0], [0]) 1 [[1]] [0; 0; 0]%Z 0 [(1%Z, (5, 0, 0)); (2%Z, (3, 4, 0))] [(0%nat, 1%nat); (0%nat, 1%nat)] = Ok 20.
Proof. exact ex_value. Qed.
Example C67_case_leaves : leaves 0 [2; 1; 1]%nat 0 /\ ~ leaves 0 [2; 2; 2]%nat 0 /\ leaves 0 [2; 2; 0]%nat 0.
Proof. exact ex_leaves. Qed.

(** ** C68 *)

(** With a positive inner cutoff, unused entries of the neighbour rows contribute nothing. *)
Theorem C68_padding_inert : forall size nmus nt rc rs old row, sized size old ->
  forall types i nbs, well_posed size nmus nt row types i nbs ->
  forall n c v, Forall (fun p => (fst p < nmus)%nat) c -> 0 < rs ->
  (basis_value size rc rs old (Z.of_nat nt) (coeff_table row nmus nt) (species types) (Z.of_nat i) (listed nbs ++ repeat padding n) c = Ok v <->
   basis_value size rc rs old (Z.of_nat nt) (coeff_table row nmus nt) (species types) (Z.of_nat i) (listed nbs) c = Ok v).
Proof. exact pads_value. Qed.
Print Assumptions C68_padding_inert.

(** With inner cutoff zero each unused entry is counted as a neighbour sitting on the centre. *)
Theorem C68_padding_counts_refuted : exists size rc old nt coeffs types c,
  basis_value size rc 0 old nt coeffs types 0 [] c <> basis_value size rc 0 old nt coeffs types 0 [padding] c /\
  (exists v, basis_value size rc 0 old nt coeffs types 0 [padding] c = Ok v).
Proof.
  exists 1%nat, 6, ([0], [0], [0]), 1%Z, [[1]], [0]%Z, [(0%nat, 0%nat)]. rewrite (proj1 ex_pad_counts), (proj2 ex_pad_counts).
  split; [intros H; injection H as H; lra|eexists; reflexivity].
Qed.
Print Assumptions C68_padding_counts_refuted.

Example C68_case : basis_value 1 6 0 ([0], [0], [0]) 1 [[1]] [0]%Z 0 [] [(0%nat, 0%nat)] = Ok 0 /\
  basis_value 1 6 0 ([0], [0], [0]) 1 [[1]] [0]%Z 0 [padding] [(0%nat, 0%nat)] = Ok 1.
Proof. exact ex_pad_counts. Qed.

(** ** C69 *)

(** Every radial function, centre species and neighbour species has its own coefficient row:
    the one stored for it. *)
Theorem C69_own_row : forall row nmus nt mu zi zj, (zi < nt)%nat -> (zj < nt)%nat -> (mu < nmus)%nat ->
  coeff_row (coeff_table row nmus nt) (coeff_index (Z.of_nat nt) mu (Z.of_nat zi) (Z.of_nat zj)) = Ok (row mu zi zj).
Proof. exact coeff_lookup. Qed.
Print Assumptions C69_own_row.

(** A radial function that does not exist is an error, not another function's coefficients. *)
Theorem C69_missing_row : forall row nmus nt mu zi zj, (zi < nt)%nat -> (zj < nt)%nat -> (nmus <= mu)%nat ->
  coeff_row (coeff_table row nmus nt) (coeff_index (Z.of_nat nt) mu (Z.of_nat zi) (Z.of_nat zj)) = Err IndexError.
Proof. exact coeff_missing. Qed.
Print Assumptions C69_missing_row.

(** No two share one. *)
Theorem C69_rows_distinct : forall nt mu mu' zi zj zi' zj', (0 <= zi < nt)%Z -> (0 <= zj < nt)%Z -> (0 <= zi' < nt)%Z -> (0 <= zj' < nt)%Z ->
  coeff_index nt mu zi zj = coeff_index nt mu' zi' zj' -> mu = mu' /\ zi = zi' /\ zj = zj'.
Proof. exact coeff_index_inj. Qed.
Print Assumptions C69_rows_distinct.

(** Species given as atomic numbers do share rows. *)
Theorem C69_unchecked_species_refuted : exists nt mu zi zj zi' zj', (zi, zj) <> (zi', zj') /\ (0 <= zi)%Z /\ (0 <= zj)%Z /\ (0 <= zi')%Z /\ (0 <= zj')%Z /\
  coeff_index nt mu zi zj = coeff_index nt mu zi' zj'.
Proof. exists 2%Z, 0%nat, 0%Z, 2%Z, 1%Z, 0%Z. repeat split; try lia. congruence. Qed.
Print Assumptions C69_unchecked_species_refuted.

(** A negative species number is refused with the first radial function and takes another
    species' row of the function before with every later one. *)
Theorem C69_negative_species : forall row nmus nt zj, (zj < nt)%nat ->
  coeff_row (coeff_table row nmus nt) (coeff_index (Z.of_nat nt) 0 (-1) (Z.of_nat zj)) = Err IndexError /\
  forall mu, (mu < nmus)%nat ->
  coeff_row (coeff_table row nmus nt) (coeff_index (Z.of_nat nt) (S mu) (-1) (Z.of_nat zj)) = Ok (row mu (nt - 1)%nat zj).
Proof. exact coeff_negative. Qed.
Print Assumptions C69_negative_species.

Example C69_case : coeff_row (coeff_table (fun mu zi zj => [INR mu; INR zi; INR zj]) 2 2) (coeff_index 2 1 0 1) = Ok [INR 1; INR 0; INR 1].
Proof. exact (coeff_lookup (fun mu zi zj => [INR mu; INR zi; INR zj]) 2 2 1 0 1 ltac:(lia) ltac:(lia) ltac:(lia)). Qed.
