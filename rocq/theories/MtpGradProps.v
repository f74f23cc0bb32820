(** Properties C96, C97: the gradients of the moment tensor descriptor. *)
From Verif Require Import MtpGradModel MtpGradSpec MtpGradProofs MtpGradFinal.
Local Open Scope R_scope.

(** ** C96 *)

(** The backward pass of an atom's values, given the gradient [G] with respect to the values,
    returns for every neighbour and every axis the partial derivative of the weighted sum of the
    values.  Entries of the neighbour row that are not used count as neighbours at the origin.
    The values exist at all positions of the neighbour. *)
Theorem C96_forces :
  forall size nmus nt rc rs old, rs < rc -> sized size old -> forall coeffs types iidx nbs combs G,
  fits size nmus nt coeffs types iidx nbs -> Forall (fun nb => regular rs (snd nb)) nbs -> Forall (complete nmus) combs -> length G = length combs ->
  exists grads rows, atom_back size rc rs old (Z.of_nat nt) coeffs types iidx nbs combs G = Ok (grads, rows) /\ length grads = length nbs /\
  forall a k z r, nth_error nbs a = Some (z, r) -> (k < 3)%nat ->
  exists f, (forall t, descriptor_row size rc rs old (Z.of_nat nt) coeffs types iidx (shift_nb a k t nbs) combs = Ok (f t)) /\
  derivable_pt_lim (fun t => weighted G (f t)) (coord k r) (coord k (nth a grads (0, 0, 0))).
Proof. exact forces. Qed.
Print Assumptions C96_forces.

(** When neighbours and coefficients move together, in any way that has a velocity, the weighted
    sum changes at the rate given by the two gradients. *)
Theorem C96_motion :
  forall size nmus nt rc rs old types iidx cs ds nbs vs x, rs < rc -> sized size old ->
  fits size nmus nt (rows_at x cs) types iidx (nbs_at x nbs) -> Forall (fun nb => regular rs (snd nb)) (nbs_at x nbs) ->
  Forall2 (fun nb v => moves x (snd nb) v) nbs vs -> Forall2 (Forall2 (fun f d => derivable_pt_lim f x d)) cs ds ->
  forall combs G, Forall (complete nmus) combs -> length G = length combs ->
  exists grads rows f, atom_back size rc rs old (Z.of_nat nt) (rows_at x cs) types iidx (nbs_at x nbs) combs G = Ok (grads, rows) /\
  (forall t, descriptor_row size rc rs old (Z.of_nat nt) (rows_at t cs) types iidx (nbs_at t nbs) combs = Ok (f t)) /\
  length grads = length nbs /\ map (@length R) rows = map (@length (R -> R)) cs /\
  derivable_pt_lim (fun t => weighted G (f t)) x (along grads vs + along_rows rows ds).
Proof. exact atom_rate. Qed.
Print Assumptions C96_motion.

(** The forces have no total moment about the atom. *)
Theorem C96_no_torque :
  forall size nmus nt rc rs old, rs < rc -> sized size old -> forall coeffs types iidx nbs combs G,
  fits size nmus nt coeffs types iidx nbs -> Forall (fun nb => regular rs (snd nb)) nbs -> Forall (complete nmus) combs -> length G = length combs ->
  exists grads rows, atom_back size rc rs old (Z.of_nat nt) coeffs types iidx nbs combs G = Ok (grads, rows) /\ torque nbs grads = (0, 0, 0).
Proof. exact no_torque. Qed.
Print Assumptions C96_no_torque.

(** They turn with the neighbours, and the gradient with respect to the coefficients stays. *)
Theorem C96_rotated :
  forall size nmus nt rc rs old, rs < rc -> sized size old -> forall coeffs types iidx nbs combs G,
  fits size nmus nt coeffs types iidx nbs -> Forall (fun nb => regular rs (snd nb)) nbs -> Forall (complete nmus) combs -> length G = length combs ->
  forall q, keeps_length q -> exists grads rows,
  atom_back size rc rs old (Z.of_nat nt) coeffs types iidx nbs combs G = Ok (grads, rows) /\
  atom_back size rc rs old (Z.of_nat nt) coeffs types iidx (move (apply_map q) nbs) combs G = Ok (map (apply_map q) grads, rows).
Proof. exact rotated_forces. Qed.
Print Assumptions C96_rotated.

(** A neighbour nearer than the inner radius (an unused entry, for instance) or not nearer than the
    cutoff gets no force, whatever the other inputs are. *)
Theorem C96_outside :
  forall size rc rs old, sized size old -> forall ntypes coeffs types iidx nbs combs G grads rows a z r,
  atom_back size rc rs old ntypes coeffs types iidx nbs combs G = Ok (grads, rows) ->
  nth_error nbs a = Some (z, r) -> outside rc rs r -> nth_error grads a = Some (0, 0, 0).
Proof. exact outside_no_force. Qed.
Print Assumptions C96_outside.

(** Exactly at the inner radius a gradient is returned although the value jumps. *)
Theorem C96_inner_radius_fails :
  exists size nmus nt rc rs old coeffs types iidx nbs combs G, rs < rc /\ sized size old /\ fits size nmus nt coeffs types iidx nbs /\
  Forall (complete nmus) combs /\ length G = length combs /\
  (exists g, atom_back size rc rs old (Z.of_nat nt) coeffs types iidx nbs combs G = Ok g) /\
  exists f r, nbs = [(1%Z, r)] /\ (forall t, descriptor_row size rc rs old (Z.of_nat nt) coeffs types iidx (shift_nb 0 0 t nbs) combs = Ok (f t)) /\
  ~ continuity_pt (fun t => weighted G (f t)) (coord 0 r).
Proof. exact inner_radius_jump. Qed.
Print Assumptions C96_inner_radius_fails.

Example C96_case_fits : fits 1 1 1 [[1]] [0; 0; 0]%Z 0 [(1%Z, (5, 0, 0)); (2%Z, (3, 4, 0)); ((-1)%Z, (0, 0, 0))] /\
  Forall (fun nb : Z * vec => regular 4 (snd nb)) [(1%Z, (5, 0, 0)); (2%Z, (3, 4, 0)); ((-1)%Z, (0, 0, 0))] /\
  Forall (complete 1) [[(0, 1); (0, 1)]; [(0, 0)]; [(0, 2); (0, 1); (0, 1)]]%nat.
Proof. exact (conj ex_fits (conj ex_regular ex_complete)). Qed.
Example C96_case : atom_back 1 6 4 ([0], [0], [0]) 1 [[1]] [0; 0]%Z 0 [(1%Z, (3, 4, 0))] [[(0, 1); (0, 1)]]%nat [1] =
  Ok ([(- (201 / 16), - (67 / 4), 0)], [[25 / 2]]).
Proof. exact ex_back. Qed.
Example C96_case_turn : forall k t, keeps_length (turn k t).
Proof. exact turn_keeps. Qed.

(** ** C97 *)

(** For every coefficient the backward pass returns the partial derivative of the weighted sum of
    the values, in a list of rows of the same shape. *)
Theorem C97_coefficients :
  forall size nmus nt rc rs old, rs < rc -> sized size old -> forall coeffs types iidx nbs combs G,
  fits size nmus nt coeffs types iidx nbs -> Forall (fun nb => regular rs (snd nb)) nbs -> Forall (complete nmus) combs -> length G = length combs ->
  exists grads rows, atom_back size rc rs old (Z.of_nat nt) coeffs types iidx nbs combs G = Ok (grads, rows) /\ map (@length R) rows = map (@length R) coeffs /\
  forall k n c, nth_error coeffs k = Some c -> (n < size)%nat ->
  exists f, (forall t, descriptor_row size rc rs old (Z.of_nat nt) (set_coeff k n t coeffs) types iidx nbs combs = Ok (f t)) /\
  derivable_pt_lim (fun t => weighted G (f t)) (nth n c 0) (entry2 k n rows).
Proof. exact training. Qed.
Print Assumptions C97_coefficients.

Example C97_case : set_coeff 0 0 5 [[1]] = [[5]] /\ nth_error [[1]] 0 = Some [1] /\ (0 < 1)%nat.
Proof. repeat split. constructor. Qed.
