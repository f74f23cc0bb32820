(** Concrete tables and a report for the examples in [BandProps]. *)
From Coq Require Import QArith Qround Qabs Lqa.
From Verif Require Import Text DataModel BandModel BandSpec BandProofs BandEdges BandFinal BandRead.
Open Scope nat_scope.
Open Scope list_scope.

Definition q (n : Z) : Q := n # 1.
(** Valence maximum at the second k-point, conduction minimum at the first. *)
Definition semi : table := mkTable [[q (-2); q (-1); q 1]; [q (-3); (-1 # 2); q 2]] [].
(** The conduction minimum is shared by two bands of the first k-point. *)
Definition twofold : table := mkTable [[q (-1); q 1; q 1]; [q (-1); q 2; q 2]] [].
(** The third band of the second k-point is close to the minimum at the first. *)
Definition elsewhere : table := mkTable [[q (-1); q 1; q 3]; [q (-1); q 2; (10005 # 10000)]] [].
(** The second k-point has both the highest occupied and the lowest empty level. *)
Definition direct : table := mkTable [[q (-1); q 3]; [q (-1); q 2]] [].

Lemma rect_cases : rectangular semi 3 /\ rectangular twofold 3 /\ rectangular elsewhere 3 /\ rectangular direct 2.
Proof. repeat split; try discriminate; intros [] r; cbn; intuition (subst; reflexivity). Qed.

Lemma not_metal t n ef : rectangular t n -> is_metal t ef = false -> ~ exists s b, crosses t ef s b.
Proof. intros R M H. apply (is_metal_iff t ef n R) in H. congruence. Qed.
Lemma semi_not_metal : ~ exists s b, crosses semi (q 0) s b.
Proof. apply (not_metal semi 3); [apply rect_cases|reflexivity]. Qed.
Definition summary (r : result (option edges)) : option (list (option Q) * list nat * list nat * list (option spin)) :=
  match r with Ok (Some e) => Some (map (option_map Qred) (e_energies e), e_kpts e, e_bands e, e_spins e) | _ => None end.

Lemma semi_case : summary (get_cbm semi (q 0)) = Some ([Some (q 1)], [1], [3], [Some Up]) /\
  summary (get_vbm semi (q 0)) = Some ([Some (-1 # 2)], [2], [2], [Some Up]) /\
  (exists g, get_bandgap semi (q 0) = Ok (Some g) /\ (g == 3 # 2)%Q) /\ get_bandgap_type semi (q 0) = Ok 0.
Proof. split; [reflexivity|]. split; [reflexivity|]. split; [|reflexivity]. eexists. split; [reflexivity|]. reflexivity. Qed.

Lemma twofold_missed : summary (get_cbm twofold (q 0)) = Some ([Some (q 1)], [1], [2], [Some Up]) /\ eigenvalue twofold Up 1 3 (q 1).
Proof. split; [reflexivity|]. split; [lia|]. split; [lia|]. eexists. split; reflexivity. Qed.
Lemma elsewhere_listed : summary (get_cbm elsewhere (q 0)) = Some ([Some (q 1); Some (q 1)], [1; 1], [2; 3], [Some Up; Some Up]) /\ eigenvalue elsewhere Up 1 3 (q 3).
Proof. split; [reflexivity|]. split; [lia|]. split; [lia|]. eexists. split; reflexivity. Qed.
Lemma band_zero : summary (get_vbm direct (q 0)) = Some ([Some (q (-1)); Some (q (-1))], [1; 1], [1; 0], [Some Up; Some Up]).
Proof. reflexivity. Qed.

Lemma eigen_direct s k b x : eigenvalue direct s k b x -> x = q (-1) \/ x = q 3 \/ x = q 2.
Proof.
  intros (K & B & r & R & X). apply nth_error_In in X. assert (I : In r (rows direct s)) by (eapply nth_error_In; eauto).
  destruct s; cbn in I; intuition (subst; cbn in X; intuition auto).
Qed.
Lemma direct_wrong : lowest_above direct (q 0) (q 2) /\ highest_below direct (q 0) (q (-1)) /\ eigenvalue direct Up 2 2 (q 2) /\ eigenvalue direct Up 2 1 (q (-1)) /\
  get_bandgap_type direct (q 0) = Ok 0.
Proof.
  assert (A : eigenvalue direct Up 2 2 (q 2)) by (split; [lia|]; split; [lia|]; eexists; split; reflexivity).
  assert (B : eigenvalue direct Up 2 1 (q (-1))) by (split; [lia|]; split; [lia|]; eexists; split; reflexivity).
  split; [|split; [|split; [exact A|split; [exact B|reflexivity]]]].
  - split; [eauto|]. split; [discriminate|]. intros s k b x E L. apply eigen_direct in E. unfold q in *. destruct E as [-> | [-> | ->]]; lra.
  - split; [eauto|]. split; [discriminate|]. intros s k b x E L. apply eigen_direct in E. unfold q in *. destruct E as [-> | [-> | ->]]; lra.
Qed.

(** Fermi energy 1.00049, levels 1.0002 and 3. *)
Definition reader (s : string) : result Q := if String.eqb s "1.00049" then Ok (100049 # 100000) else Err ValueError.
Lemma fermi_wrong : exists ef c, get_efermi reader "E_Fermi(eV)= 1.00049 eV" = Ok ef /\ get_cbm (mkTable [[10002 # 10000; q 3]] []) ef = Ok (Some c) /\
  exists e, hd_error (e_energies c) = Some (Some e) /\ (e < 100049 # 100000)%Q.
Proof. eexists _, _. split; [reflexivity|]. split; [reflexivity|]. eexists. split; [reflexivity|]. reflexivity. Qed.

(** A report with two k-points and three bands. *)
Definition small_int (s : string) : result nat := if String.eqb s "2" then Ok 2 else if String.eqb s "3" then Ok 3 else Err ValueError.
Definition small_float (s : string) : result Q := if String.eqb s "-1.0" then Ok (q (-1)) else if String.eqb s "2.5" then Ok (5 # 2) else if String.eqb s "0.5" then Ok (1 # 2) else Err ValueError.
Definition rep_pre : list string := [" NUM_KPT = 2"; " NUM_BAND = 3"]%string.
Definition rep_parts : list part := [mkPart " kpt 1 eigen energies, in eV" [" -1.0 0.5 2.5"] [" ----"]; mkPart " kpt 2 eigen energies, in eV" [" -1.0 2.5 2.5"] []]%string.
Lemma report_case : states small_int (rep_pre ++ concat (map part_lines rep_parts)) "NUM_KPT" 2 /\ states small_int (rep_pre ++ concat (map part_lines rep_parts)) "NUM_BAND" 3 /\
  well_formed rep_pre rep_parts ((3 + 4) / 5) /\ mapM (values small_float) rep_parts = Ok [[q (-1); 1 # 2; 5 # 2]; [q (-1); 5 # 2; 5 # 2]] /\
  forall b, get_eigen_energies small_int small_float b (rep_pre ++ concat (map part_lines rep_parts)) = Ok (mkTable [[q (-1); 1 # 2; 5 # 2]; [q (-1); 5 # 2; 5 # 2]] []).
Proof.
  split; [exists [], " NUM_KPT = 2"%string, (" NUM_BAND = 3"%string :: concat (map part_lines rep_parts)), ["NUM_KPT"; "="]%string, "2"%string; repeat split; constructor|].
  split; [exists [" NUM_KPT = 2"]%string, " NUM_BAND = 3"%string, (concat (map part_lines rep_parts)), ["NUM_BAND"; "="]%string, "3"%string; repeat split; repeat constructor|].
  split; [split; repeat constructor|]. split; [reflexivity|]. intros b. reflexivity.
Qed.

Lemma direct_low : (~ exists s b, crosses direct (q 5) s b) /\ (forall s k b x, eigenvalue direct s k b x -> (x < q 5)%Q).
Proof.
  split; [apply (not_metal direct 2); [apply rect_cases|reflexivity]|]. intros s k b x E. apply eigen_direct in E. unfold q. destruct E as [-> | [-> | ->]]; unfold q; lra.
Qed.
