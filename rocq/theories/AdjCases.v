From Verif Require Import Vec StructSpec NeighSpec AdjModel AdjSpec AdjProofs.
Local Open Scope nat_scope.
Local Open Scope list_scope.

Lemma self_within A B C rcut f : (0 <= rcut)%R -> within_cutoff A B C rcut f f (0, 0, 0)%Z.
Proof.
  intros Hr. unfold within_cutoff. replace (dist2 _ _) with 0%R; [rewrite sqrt_0; exact Hr|]. destruct A as [[? ?] ?], B as [[? ?] ?], C as [[? ?] ?], f as [[? ?] ?]. vec_unfold. ring.
Qed.

(** One atom in a cube of side 10, cutoff 1: doubled cells give it seven neighbours. *)
Lemma phantom : exists m, get_adjacent_matrix (10, 0, 0)%R (0, 10, 0)%R (0, 0, 10)%R 1 2 2 2 [(0, 0, 0)%R] = Ok m /\ entry m 0 0 7%Z /\
  there_are 0 (fun t => within_cutoff (10, 0, 0)%R (0, 10, 0)%R (0, 0, 10)%R 1 (0, 0, 0)%R (0, 0, 0)%R t /\ t <> (0, 0, 0)%Z).
Proof.
  destruct (adj_even_small (10, 0, 0)%R (0, 10, 0)%R (0, 0, 10)%R 1 2 2 2 [(0, 0, 0)%R]) as (m & E & H); [auto..|]. exists m. split; [exact E|]. split.
  - apply (H 0 0 (0, 0, 0)%R (0, 0, 0)%R eq_refl eq_refl). apply self_within. lra.
  - exists []. split; [constructor|]. split; [|reflexivity]. intros [[a b] c]. split; [intros []|]. intros [W N]. unfold within_cutoff in W. exfalso. apply N.
    set (d := dist2 _ _) in W. assert (Ed : d = (100 * (IZR a * IZR a) + 100 * (IZR b * IZR b) + 100 * (IZR c * IZR c))%R) by (unfold d; vec_unfold; ring).
    assert (Sq : forall z : Z, z <> 0%Z -> (1 <= IZR z * IZR z)%R) by (intros z Hz; rewrite <- mult_IZR; apply IZR_le; nia). assert (Nn : forall z : Z, (0 <= IZR z * IZR z)%R) by (intros z; nra).
    assert (Dle : (d <= 1)%R). { assert (D0 : (0 <= d)%R) by (rewrite Ed; assert (A1 := Nn a); assert (A2 := Nn b); assert (A3 := Nn c); lra). assert (P := sqrt_pos d). rewrite <- (sqrt_sqrt d D0). nra. }
    assert (A1 := Nn a). assert (A2 := Nn b). assert (A3 := Nn c). rewrite Ed in Dle.
    destruct (Z.eq_dec a 0) as [->|Na]; [|assert (X := Sq a Na); lra]. destruct (Z.eq_dec b 0) as [->|Nb]; [|assert (X := Sq b Nb); lra]. destruct (Z.eq_dec c 0) as [->|Nc]; [|assert (X := Sq c Nc); lra]. reflexivity.
Qed.

(** A cube of side 1, cutoff 1, two atoms. *)
Lemma crystal_case : det (1, 0, 0)%R (0, 1, 0)%R (0, 0, 1)%R <> 0%R /\ positive_odd 3 /\ reaches 1 3 (1, 0, 0)%R (0, 1, 0)%R (0, 0, 1)%R /\ reaches 1 3 (0, 1, 0)%R (0, 0, 1)%R (1, 0, 0)%R /\
  reaches 1 3 (0, 0, 1)%R (1, 0, 0)%R (0, 1, 0)%R /\ Forall unit_coords [(0, 0, 0)%R; (1 / 2, 1 / 2, 1 / 2)%R] /\
  within_cutoff (1, 0, 0)%R (0, 1, 0)%R (0, 0, 1)%R 1 (0, 0, 0)%R (0, 0, 0)%R (1, 0, 0)%Z.
Proof.
  split; [vec_unfold; lra|]. split; [split; [lia|exists 1%Z; reflexivity]|]. unfold reaches. do 3 (split; [vec_unfold; lra|]). split.
  - repeat constructor; unfold unit_coords; cbn; lra.
  - unfold within_cutoff. replace (dist2 _ _) with 1%R by (vec_unfold; ring). rewrite sqrt_1. lra.
Qed.
