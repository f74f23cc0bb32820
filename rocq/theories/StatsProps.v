(** Normalisation of environment matrices: C24, C63.
    The definitions are in [StatsModel] (code) and [StatsSpec] (vocabulary). *)
From Verif Require Import Arr StatsModel StatsSpec StatsProofs.
Open Scope R_scope.

(** ** C24 *)

(** For every sample, empty ones included: no delivered deviation is nan or below 0.01, and the
    three directional entries of the mean are 0. *)
Theorem C24_floor :
  forall rows : list row4, exists a0 d0 d1 d2 d3,
  calc_stats rows = ((a0, 0, 0, 0), (Some d0, Some d1, Some d2, Some d3)) /\
  1 / 100 <= d0 /\ 1 / 100 <= d1 /\ 1 / 100 <= d2 /\ 1 / 100 <= d3.
Proof. exact stats_floor. Qed.
Print Assumptions C24_floor.

(** For every non-empty sample: the radial deviation is the larger of 0.01 and the standard
    deviation of the first column, the other three are the larger of 0.01 and the standard
    deviation of all directional entries pooled; the radial mean is off by the factor
    N / (N + 1e-15). *)
Theorem C24_values :
  forall rows : list row4, rows <> [] -> exists dr da,
  calc_stats rows = ((mean (map rad rows) * (INR (length rows) / (INR (length rows) + 1 / 10 ^ 15)), 0, 0, 0), (Some dr, Some da, Some da, Some da)) /\
  dr = Rmax (1 / 100) (deviation (map rad rows)) /\ da = Rmax (1 / 100) (deviation (flat_map ang rows)).
Proof. exact stats_ok. Qed.
Print Assumptions C24_values.

Theorem C24_mean_close :
  forall (rows : list row4) a d, rows <> [] -> calc_stats rows = ((a, 0, 0, 0), d) ->
  Rabs (a - mean (map rad rows)) <= Rabs (mean (map rad rows)) / 10 ^ 15.
Proof. exact mean_close. Qed.
Print Assumptions C24_mean_close.

(** Normalising the sample with its own statistics: deviations become 1 (or less, if below the
    floor) and the radial mean becomes zero up to 1e-13 of itself. *)
Theorem C24_normalized :
  forall (rows : list row4) davg dstd, rows <> [] ->
  calc_stats rows = (davg, (Some (fst (fst (fst dstd))), Some (snd (fst (fst dstd))), Some (snd (fst dstd)), Some (snd dstd))) ->
  let out := map (normalize_row davg dstd) rows in
  deviation (map rad out) = deviation (map rad rows) / Rmax (1 / 100) (deviation (map rad rows)) /\
  deviation (flat_map ang out) = deviation (flat_map ang rows) / Rmax (1 / 100) (deviation (flat_map ang rows)) /\
  Rabs (mean (map rad out)) <= Rabs (mean (map rad rows)) / 10 ^ 13.
Proof. exact normalized_unit. Qed.
Print Assumptions C24_normalized.

(** Normalising loses nothing. *)
Theorem C24_inverse :
  forall davg d0 d1 d2 d3 r, d0 <> 0 -> d1 <> 0 -> d2 <> 0 -> d3 <> 0 ->
  let '(a0, a1, a2, a3) := davg in let '(y0, y1, y2, y3) := normalize_row davg (d0, d1, d2, d3) r in
  r = (y0 * d0 + a0, y1 * d1 + a1, y2 * d2 + a2, y3 * d3 + a3).
Proof. exact normalize_inverse. Qed.
Print Assumptions C24_inverse.

(** The scaled derivatives are the derivatives of the normalised entries. *)
Theorem C24_derivative :
  forall (r0 r1 r2 r3 : R -> R) x l0 l1 l2 l3 davg dstd,
  derivable_pt_lim r0 x l0 -> derivable_pt_lim r1 x l1 -> derivable_pt_lim r2 x l2 -> derivable_pt_lim r3 x l3 ->
  let n := fun t => normalize_row davg dstd (r0 t, r1 t, r2 t, r3 t) in let g := normalize_derivative_row dstd (l0, l1, l2, l3) in
  derivable_pt_lim (fun t => fst (fst (fst (n t)))) x (fst (fst (fst g))) /\ derivable_pt_lim (fun t => snd (fst (fst (n t)))) x (snd (fst (fst g))) /\
  derivable_pt_lim (fun t => snd (fst (n t))) x (snd (fst g)) /\ derivable_pt_lim (fun t => snd (n t)) x (snd g).
Proof. exact normalized_derivative. Qed.
Print Assumptions C24_derivative.

Example C24_case : mean (map rad two_rows) = 2 /\ deviation (map rad two_rows) = 1.
Proof. exact two_rows_stats. Qed.

(** ** C63 *)

(** If every centre element is also a neighbour element, the assembled matrix has, for every
    centre element in order, one row per centre atom, made of its blocks for the centre elements
    in order (not the neighbour elements). *)
Theorem C63_assembled :
  forall (F : Type) (blocks : Z -> Z -> list (list F)) (count width : Z -> nat) (centers nbrs : list Z), centers <> [] ->
  (forall c, In c centers -> In c nbrs) ->
  (forall c n, In c centers -> In n centers -> length (blocks c n) = count c /\ Forall (fun r => length r = width n) (blocks c n)) ->
  exists out, assemble blocks centers nbrs = Ok out /\ assembled blocks centers centers out /\
  Forall (fun r => length r = fold_right plus 0%nat (map width centers)) out.
Proof. exact @assemble_ok. Qed.
Print Assumptions C63_assembled.

(** A centre element that is not a neighbour element raises KeyError. *)
Theorem C63_missing_neighbour :
  forall (F : Type) (blocks : Z -> Z -> list (list F)) (centers nbrs : list Z) (c : Z), In c centers -> ~ In c nbrs ->
  assemble blocks centers nbrs = Err KeyError.
Proof. exact @assemble_missing. Qed.
Print Assumptions C63_missing_neighbour.

(** No centre element, or blocks of one centre element with different numbers of rows: ValueError;
    and no other exception is possible if every centre element is a neighbour element. *)
Theorem C63_rejected :
  forall (F : Type) (blocks : Z -> Z -> list (list F)) (centers nbrs : list Z), (forall c, In c centers -> In c nbrs) ->
  ((exists out, assemble blocks centers nbrs = Ok out) \/ assemble blocks centers nbrs = Err ValueError) /\
  (centers = [] \/ (exists c n n', In c centers /\ In n centers /\ In n' centers /\ length (blocks c n) <> length (blocks c n')) -> assemble blocks centers nbrs = Err ValueError).
Proof. exact @assemble_rejected. Qed.
Print Assumptions C63_rejected.
Example C63_rejected_case : assemble (fun c n => repeat [n] (Z.to_nat n)) [1%Z; 2%Z] [1%Z; 2%Z] = Err ValueError.
Proof. exact eq_refl. Qed.

(** Neighbour elements that are not centre elements are silently left out. *)
Theorem C63_all_neighbours_refuted :
  exists (blocks : Z -> Z -> list (list Z)) out, assemble blocks [3%Z] [3%Z; 14%Z] = Ok out /\ ~ assembled blocks [3%Z] [3%Z; 14%Z] out.
Proof. exact columns_lost. Qed.
Print Assumptions C63_all_neighbours_refuted.

Example C63_case : assemble (fun c n => repeat [c; n] (if (c =? 3)%Z then 2 else 1)) [3%Z; 14%Z] [3%Z; 14%Z] =
  Ok [[3; 3; 3; 14]; [3; 3; 3; 14]; [14; 3; 14; 14]]%Z.
Proof. reflexivity. Qed.
