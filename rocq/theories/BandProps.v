(** Band edges of a REPORT file: C30, C31, C65.
    The definitions are in [BandModel] (code) and [BandSpec] (vocabulary). *)
From Coq Require Import QArith Qabs.
From Verif Require Import Text DataModel BandModel BandSpec BandProofs BandEdges BandFinal BandRead BandCases.
Open Scope nat_scope.
Open Scope list_scope.

(** ** C30 *)

(** A table where some band has levels more than 0.0001 below and more than 0.0001 above the Fermi
    level is a metal: no edges, and asking for the gap raises. *)
Theorem C30_metal :
  forall t ef n, rectangular t n -> (exists s b, crosses t ef s b) ->
  get_cbm t ef = Ok None /\ get_vbm t ef = Ok None /\ get_bandgap t ef = Err TypeError /\ get_bandgap_type t ef = Err TypeError.
Proof. exact metal. Qed.
Print Assumptions C30_metal.

(** Otherwise the first reported conduction minimum is the lowest level at or above the Fermi
    level, over all k-points, bands and spins, rounded to four decimals; the level at the reported
    position is at or above the Fermi level and rounds to the same value.  (The remaining entries
    are C31's.) *)
Theorem C30_cbm :
  forall t ef n, rectangular t n -> ~ (exists s b, crosses t ef s b) -> (exists s k b x, eigenvalue t s k b x /\ (ef <= x)%Q) ->
  exists s k b x m ups downs, get_cbm t ef = Ok (Some (mkEdges (Some (round4 x) :: map (fun _ => Some (round4 x)) (ups ++ downs)) (k :: map (fun _ => k) (ups ++ downs))
      (b :: ups ++ downs) (Some s :: map (fun _ => Some Up) ups ++ map (fun _ => Some Down) downs))) /\
  eigenvalue t s k b x /\ (ef <= x)%Q /\ lowest_above t ef m /\ (round4 x == round4 m)%Q /\
  close_bands t Up (k + 1) (round4 x) n ups /\ close_bands t Down (k + 1) (round4 x) n downs.
Proof. exact cbm_reported. Qed.
Print Assumptions C30_cbm.

(** Likewise the valence maximum is the highest level at or below. *)
Theorem C30_vbm :
  forall t ef n, rectangular t n -> ~ (exists s b, crosses t ef s b) -> (exists s k b x, eigenvalue t s k b x /\ (x <= ef)%Q) ->
  exists s k b x m ups downs, get_vbm t ef = Ok (Some (mkEdges (Some (round4 x) :: map (fun _ => Some (round4 x)) (ups ++ downs)) (k :: map (fun _ => k) (ups ++ downs))
      (b :: map (fun j => j - 1) (ups ++ downs)) (Some s :: map (fun _ => Some Up) ups ++ map (fun _ => Some Down) downs))) /\
  eigenvalue t s k b x /\ (x <= ef)%Q /\ highest_below t ef m /\ (round4 x == round4 m)%Q /\
  close_bands t Up (k + 1) (round4 x) n ups /\ close_bands t Down (k + 1) (round4 x) n downs.
Proof. exact vbm_reported. Qed.
Print Assumptions C30_vbm.

(** Rounding to four decimals changes nothing if the levels have at most four. *)
Theorem C30_exact :
  forall x n, (x == n # 10000)%Q -> (round4 x == x)%Q.
Proof. exact round4_exact. Qed.
Print Assumptions C30_exact.

(** In general the rounded value is a nearest multiple of 0.0001, the even one of two. *)
Theorem C30_rounding : forall x, rounds_to 10000 x (round4 x).
Proof. exact round4_ok. Qed.
Print Assumptions C30_rounding.
Example C30_rounding_case : (round4 (5 # 100000) == 0)%Q /\ (round4 (15 # 100000) == 2 # 10000)%Q /\ (round4 (-7 # 100000) == -1 # 10000)%Q.
Proof. repeat split; reflexivity. Qed.

(** Then the reported position is the first one, spin up before down, by k-point, by band. *)
Theorem C30_cbm_first :
  forall t ef c e k b s, four_decimals t -> get_cbm t ef = Ok (Some c) ->
  hd_error (e_energies c) = Some (Some e) -> hd_error (e_kpts c) = Some k -> hd_error (e_bands c) = Some b -> hd_error (e_spins c) = Some (Some s) ->
  (exists x, eigenvalue t s k b x /\ (x == e)%Q) /\
  forall s' k' b' x, eigenvalue t s' k' b' x -> (ef <= x)%Q -> before (s', k', b') (s, k, b) -> (e < x)%Q.
Proof. exact cbm_first_reported. Qed.
Print Assumptions C30_cbm_first.
Theorem C30_vbm_first :
  forall t ef c e k b s, four_decimals t -> get_vbm t ef = Ok (Some c) ->
  hd_error (e_energies c) = Some (Some e) -> hd_error (e_kpts c) = Some k -> hd_error (e_bands c) = Some b -> hd_error (e_spins c) = Some (Some s) ->
  (exists x, eigenvalue t s k b x /\ (x == e)%Q) /\
  forall s' k' b' x, eigenvalue t s' k' b' x -> (x <= ef)%Q -> before (s', k', b') (s, k, b) -> (x < e)%Q.
Proof. exact vbm_first_reported. Qed.
Print Assumptions C30_vbm_first.

(** The gap is the difference of the rounded levels and never negative. *)
Theorem C30_gap :
  forall t ef n mc mv, rectangular t n -> ~ (exists s b, crosses t ef s b) -> lowest_above t ef mc -> highest_below t ef mv ->
  exists g, get_bandgap t ef = Ok (Some g) /\ (g == round4 mc - round4 mv)%Q /\ (0 <= g)%Q.
Proof. exact gap_value. Qed.
Print Assumptions C30_gap.

(** With four decimals it is the exact difference, and positive exactly if no level sits on the
    Fermi level. *)
Theorem C30_gap_positive :
  forall t ef n mc mv g, rectangular t n -> four_decimals t -> ~ (exists s b, crosses t ef s b) -> lowest_above t ef mc -> highest_below t ef mv ->
  get_bandgap t ef = Ok (Some g) -> (g == mc - mv)%Q /\ ((0 < g)%Q <-> forall s k b x, eigenvalue t s k b x -> ~ (x == ef)%Q).
Proof. exact gap_positive. Qed.
Print Assumptions C30_gap_positive.

(** Without levels above, or without levels below, the gap is infinite. *)
Theorem C30_gap_infinite :
  forall t ef n, rectangular t n -> ~ (exists s b, crosses t ef s b) ->
  (forall s k b x, eigenvalue t s k b x -> (x < ef)%Q) \/ (forall s k b x, eigenvalue t s k b x -> (ef < x)%Q) -> get_bandgap t ef = Ok None.
Proof. exact gap_infinite. Qed.
Print Assumptions C30_gap_infinite.

(** No level above (below): the conduction (valence) list holds infinity at k-point 0, band 0 and no
    spin.  A report without spin-up k-points cannot be evaluated. *)
Theorem C30_no_levels :
  forall t ef n, rectangular t n -> ~ (exists s b, crosses t ef s b) ->
  ((forall s k b x, eigenvalue t s k b x -> (x < ef)%Q) -> get_cbm t ef = Ok (Some (mkEdges [None] [0] [0] [None]))) /\
  ((forall s k b x, eigenvalue t s k b x -> (ef < x)%Q) -> get_vbm t ef = Ok (Some (mkEdges [None] [0] [0] [None]))).
Proof. exact no_levels. Qed.
Print Assumptions C30_no_levels.
Theorem C30_no_rows :
  forall t ef n, t_up t = [] -> (forall s r, In r (rows t s) -> List.length r = n) -> ~ (exists s b, crosses t ef s b) ->
  get_cbm t ef = Err IndexError /\ get_vbm t ef = Err IndexError.
Proof. exact no_rows. Qed.
Print Assumptions C30_no_rows.

(** The Fermi energy is the second last word of the first line, rounded to three decimals. *)
Theorem C30_fermi :
  forall float_of row ts t u x, split_ws row = ts ++ [t; u] -> float_of t = Ok x -> exists ef, get_efermi float_of row = Ok ef /\ rounds_to 1000 x ef.
Proof. exact fermi_ok. Qed.
Print Assumptions C30_fermi.
Theorem C30_fermi_short : forall float_of row, List.length (split_ws row) <= 1 -> get_efermi float_of row = Err IndexError.
Proof. exact fermi_short. Qed.
Print Assumptions C30_fermi_short.
Example C30_fermi_case : exists ef, get_efermi reader "E_Fermi(eV)= 1.00049 eV" = Ok ef /\ (ef == 1)%Q.
Proof. eexists. split; reflexivity. Qed.
Example C30_no_levels_case : rectangular direct 2 /\ (~ exists s b, crosses direct (q 5) s b) /\ (forall s k b x, eigenvalue direct s k b x -> (x < q 5)%Q) /\
  get_cbm direct (q 5) = Ok (Some (mkEdges [None] [0] [0] [None])).
Proof. exact (conj (proj2 (proj2 (proj2 rect_cases))) (conj (proj1 direct_low) (conj (proj2 direct_low) eq_refl))). Qed.

(** The Fermi energy used is the one of the file rounded to three decimals: with 1.00049 in the
    file, the occupied level 1.0002 is reported as conduction minimum. *)
Theorem C30_file_fermi_refuted :
  exists ef c, get_efermi reader "E_Fermi(eV)= 1.00049 eV" = Ok ef /\ get_cbm (mkTable [[10002 # 10000; q 3]] []) ef = Ok (Some c) /\
  exists e, hd_error (e_energies c) = Some (Some e) /\ (e < 100049 # 100000)%Q.
Proof. exact fermi_wrong. Qed.
Print Assumptions C30_file_fermi_refuted.

Example C30_case : rectangular semi 3 /\ (~ exists s b, crosses semi (q 0) s b) /\
  summary (get_cbm semi (q 0)) = Some ([Some (q 1)], [1], [3], [Some Up]) /\
  summary (get_vbm semi (q 0)) = Some ([Some (-1 # 2)], [2], [2], [Some Up]) /\
  (exists g, get_bandgap semi (q 0) = Ok (Some g) /\ (g == 3 # 2)%Q) /\ get_bandgap_type semi (q 0) = Ok 0.
Proof. exact (conj (proj1 rect_cases) (conj semi_not_metal semi_case)). Qed.

(** ** C31 *)

(** By [C30_cbm] and [C30_vbm] the further entries are the bands close to the extremum at the
    k-point AFTER the extremum's, listed under the extremum's k-point.  At the last k-point there
    are none. *)
Theorem C31_last :
  forall t s k e n bs, List.length (rows t s) <= k -> close_bands t s (k + 1) e n bs -> bs = [].
Proof. exact close_last. Qed.
Print Assumptions C31_last.

(** All entries of each list name one k-point, and the gap is called direct exactly if the first
    k-points found are equal. *)
Theorem C31_direct :
  forall t ef c v, get_cbm t ef = Ok (Some c) -> get_vbm t ef = Ok (Some v) ->
  exists kc kv, hd_error (e_kpts c) = Some kc /\ hd_error (e_kpts v) = Some kv /\ Forall (eq kc) (e_kpts c) /\ Forall (eq kv) (e_kpts v) /\
  get_bandgap_type t ef = Ok (if kv =? kc then 1 else 0).
Proof. exact gap_type. Qed.
Print Assumptions C31_direct.

(** A band sharing the minimum at the same k-point is missed. *)
Theorem C31_shared_missed_refuted :
  summary (get_cbm twofold (q 0)) = Some ([Some (q 1)], [1], [2], [Some Up]) /\ eigenvalue twofold Up 1 3 (q 1).
Proof. exact twofold_missed. Qed.
Print Assumptions C31_shared_missed_refuted.

(** A band that is at 3 is listed as sharing the minimum 1. *)
Theorem C31_shared_listed_refuted :
  summary (get_cbm elsewhere (q 0)) = Some ([Some (q 1); Some (q 1)], [1; 1], [2; 3], [Some Up; Some Up]) /\ eigenvalue elsewhere Up 1 3 (q 3).
Proof. exact elsewhere_listed. Qed.
Print Assumptions C31_shared_listed_refuted.

(** The bands added to the valence maximum are counted from 0, unlike the first one. *)
Theorem C31_band_zero_refuted :
  summary (get_vbm direct (q 0)) = Some ([Some (q (-1)); Some (q (-1))], [1; 1], [1; 0], [Some Up; Some Up]).
Proof. exact band_zero. Qed.
Print Assumptions C31_band_zero_refuted.

(** A gap with both edges at the second k-point is called indirect. *)
Theorem C31_direct_refuted :
  lowest_above direct (q 0) (q 2) /\ highest_below direct (q 0) (q (-1)) /\ eigenvalue direct Up 2 2 (q 2) /\ eigenvalue direct Up 2 1 (q (-1)) /\
  get_bandgap_type direct (q 0) = Ok 0.
Proof. exact direct_wrong. Qed.
Print Assumptions C31_direct_refuted.

(** ** C65 *)

(** A report that states the numbers of k-points and bands, with one block of ceil(bands / 5)
    lines per k-point and spin: the first blocks are the spin-up rows, the others the spin-down
    rows, in order and complete.  With two spins this needs at least three bands and a NumPy
    before 1.25. *)
Theorem C65_reading :
  forall int_of float_of strict pre ps nk nb vs,
  let lines := pre ++ concat (map part_lines ps) in
  states int_of lines "NUM_KPT" nk -> states int_of lines "NUM_BAND" nb -> well_formed pre ps ((nb + 4) / 5) ->
  mapM (fun p => mapM float_of (flat_map split_ws (p_numbers p))) ps = Ok vs -> Forall (fun r => List.length r = nb) vs ->
  List.length ps <= nk \/ 3 <= nb /\ strict = false ->
  get_eigen_energies int_of float_of strict lines = Ok (mkTable (firstn nk vs) (skipn nk vs)).
Proof. exact reading_ok. Qed.
Print Assumptions C65_reading.

(** Otherwise a report with two spins is rejected by the final check, which compares the shape of
    one array with the contents of the other. *)
Theorem C65_two_spins_fail :
  forall int_of float_of strict pre ps nk nb vs,
  let lines := pre ++ concat (map part_lines ps) in
  states int_of lines "NUM_KPT" nk -> states int_of lines "NUM_BAND" nb -> well_formed pre ps ((nb + 4) / 5) ->
  mapM (fun p => mapM float_of (flat_map split_ws (p_numbers p))) ps = Ok vs -> Forall (fun r => List.length r = nb) vs ->
  nk < List.length ps -> 0 < nb -> nb < 3 \/ strict = true ->
  get_eigen_energies int_of float_of strict lines = Err ValueError.
Proof. exact reading_spins. Qed.
Print Assumptions C65_two_spins_fail.

Example C65_case : states small_int (rep_pre ++ concat (map part_lines rep_parts)) "NUM_KPT" 2 /\ states small_int (rep_pre ++ concat (map part_lines rep_parts)) "NUM_BAND" 3 /\
  well_formed rep_pre rep_parts ((3 + 4) / 5) /\ mapM (values small_float) rep_parts = Ok [[q (-1); 1 # 2; 5 # 2]; [q (-1); 5 # 2; 5 # 2]] /\
  forall b, get_eigen_energies small_int small_float b (rep_pre ++ concat (map part_lines rep_parts)) = Ok (mkTable [[q (-1); 1 # 2; 5 # 2]; [q (-1); 5 # 2; 5 # 2]] []).
Proof. exact report_case. Qed.
