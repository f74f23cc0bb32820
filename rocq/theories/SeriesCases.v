(** A concrete trajectory for the average bonds. *)
From Coq Require Import String Lra Lia.
From Verif Require Import Arr Vec StructSpec SeModel NeighModel NeighSpec NeighReal DataModel DataSpec DataProofs AvgModel AvgSpec AvgBondProofs AvgProofs AvgCases ElementModel CollModel CollCases SeriesModel SeriesSpec SeriesProofs.
Open Scope nat_scope.

Lemma cube_proper : proper 9 3 3 3 cube_frame.
Proof.
  unfold proper, cube_frame. cbn [fr_a fr_b fr_c fr_sites].
  destruct cube_reaches as (R0 & R1 & R2). repeat split; try assumption.
  - rewrite det_cube. lra.
  - exact (separated_distinct _ _ _ _ two_separated).
  - exact two_in_cell.
  - discriminate.
Qed.

Lemma cube_average : frame_average 9 8 1 cube_frame (Some 5%R).
Proof. exists two_bonds. split; [exact two_bonds_all|symmetry; exact two_average]. Qed.

(** Whatever the options: the value in Angstrom, not the half a cell of fractional coordinates. *)
Lemma cube_series : forall argsort m c, sorts Rleb argsort ->
  get_frames_avg_bond argsort 3 [cube_frame] "O" "H" 9 3 3 3 m c = Ok [Some 5%R].
Proof.
  intros argsort m c Hs. unfold get_frames_avg_bond, avg_bond_object.
  assert (N1 : number_of "O" = Ok 8%Z) by reflexivity. assert (N2 : number_of "H" = Ok 1%Z) by reflexivity.
  rewrite N1, N2. cbn [bind get nth_error fst snd]. unfold starmap. cbn [mapM Z.sub Z.ltb Z.compare].
  change (3 + - (2) <? 1)%Z with false. cbv iota.
  rewrite (frame_value_is argsort Hs 9 3 3 3 odd3 odd3 odd3 ltac:(lra) 8 1 cube_frame (Some 5%R) cube_proper cube_average). reflexivity.
Qed.
