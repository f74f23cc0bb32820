(** Concrete cases for the collection. *)
From Coq Require Import String.
From Verif Require Import Arr Vec StructModel StructSpec SiteIndexModel SiteIndexSpec StructProofs NeighModel NeighSpec NeighProofs NeighCounts NeighPair NeighGlue NeighReal AvgModel DataModel PertModel CollModel CollSpec CollProofs.
From Coq Require Import ZifyBool.
Open Scope nat_scope.

Definition cube_frame : frame := mkFrame axis_a axis_b axis_c two_sites.
Definition single_frame : frame := mkFrame axis_a axis_b axis_c one_site.
Definition toy_an (e : string) : result Z := if String.eqb e "H"%string then Ok 1%Z else if String.eqb e "O"%string then Ok 8%Z else Err KeyError.

Lemma cube_regular : regular cube_frame.
Proof. split; [cbn; rewrite det_cube; lra|]. apply separated_distinct. exact two_separated. Qed.
Lemma single_regular : regular single_frame.
Proof.
  split; [cbn; rewrite det_cube; lra|]. intros i j p q a b c Ei Ej _. cbn in Ei, Ej. destruct i as [|[|]]; [|discriminate|discriminate]. destruct j as [|[|]]; [reflexivity|discriminate|discriminate].
Qed.

(** Sites with whole coordinates are never at distance 3/2. *)
Definition whole (v : vec) : Prop := exists a b c : Z, v = (IZR a, IZR b, IZR c).
Lemma whole_image (sites : list (Z * vec)) i a : Forall (fun s => whole (snd s)) sites -> image_of_site axis_a axis_b axis_c sites a i -> whole (snd a).
Proof.
  intros H (s & p & q & r & Es & ->). rewrite Forall_forall in H. destruct (H s (nth_error_In _ _ Es)) as (x & y & z & E). cbn [snd]. rewrite E.
  exists (x + 10 * p)%Z, (y + 10 * q)%Z, (z + 10 * r)%Z. rewrite !plus_IZR, !mult_IZR. unfold vadd, comb, vscale, axis_a, axis_b, axis_c. cbn. f_equal; [f_equal|]; ring.
Qed.
Lemma whole_distance p q : whole p -> whole q -> vdist p q <> (3 / 2)%R.
Proof.
  intros (a & b & c & ->) (a' & b' & c' & ->) E. assert (X : (vdist (IZR a, IZR b, IZR c) (IZR a', IZR b', IZR c') * vdist (IZR a, IZR b, IZR c) (IZR a', IZR b', IZR c') = 9 / 4)%R) by (rewrite E; field).
  rewrite vdist_norm2, sqrt_sqrt in X by apply dist2_nonneg. unfold dist2, norm2, vsub, dot in X. cbn in X. rewrite <- !minus_IZR, <- !mult_IZR, <- !plus_IZR in X.
  match type of X with IZR ?n = _ => assert (Y : (IZR (4 * n) = IZR 9)%R) by (rewrite mult_IZR; lra) end. apply eq_IZR in Y. lia.
Qed.
Lemma whole_off f s0 s1 s2 : fr_a f = axis_a -> fr_b f = axis_b -> fr_c f = axis_c -> regular f -> positive_odd s0 -> positive_odd s1 -> positive_odd s2 ->
  Forall (fun s => whole (snd s)) (fr_sites f) -> none_on_cutoff (3 / 2)%R s0 s1 s2 f.
Proof.
  intros Ea Eb Ec [Hd Hx] O0 O1 O2 Hw sup centres c cen a [Es _] _ Ecen Ia.
  destruct (supercell_nodup _ _ _ Hd s0 s1 s2 true (fr_sites f) sup O0 O1 O2 Hx Es) as (_ & Im & _).
  apply In_nth_error in Ia. destruct Ia as (j & Ej). destruct (Im j a Ej) as (i & Hi). destruct (Im c cen Ecen) as (i' & Hi'). rewrite Ea, Eb, Ec in Hi, Hi'.
  apply whole_distance; [exact (whole_image _ i a Hw Hi)|exact (whole_image _ i' cen Hw Hi')].
Qed.

(** With these two frames and cutoff 3/2 the count for hydrogen is positive. *)
Lemma hydrogen_near m : largest_of_frames (closer_element 1 (3 / 2)%R) 3 3 3 [single_frame; cube_frame] m -> 0 < m.
Proof.
  intros [H _]. destruct (H cube_frame (or_intror (or_introl eq_refl))) as (n & (sup & cs & [Es Em] & [L _]) & Hn). cbn [cube_frame fr_a fr_b fr_c fr_sites] in *.
  assert (R2 : reformat_elements_ vec two_sites = [(1%Z, (1, 0, 0)%R); (8%Z, (0, 0, 0)%R)]) by reflexivity. rewrite R2 in Em.
  assert (G : forall s, In s [(1%Z, (1, 0, 0)%R); (8%Z, (0, 0, 0)%R)] -> exists c, In c cs /\ nth_error sup c = Some s).
  { intros s Is. assert (X : In (Some s) (map (nth_error sup) cs)) by (rewrite Em; apply in_map; exact Is). apply in_map_iff in X. destruct X as (c & Ec & Ic). exists c. split; assumption. }
  destruct (G (8%Z, (0, 0, 0)%R)) as (c & Ic & Ec); [right; left; reflexivity|]. destruct (G (1%Z, (1, 0, 0)%R)) as (j & _ & Ej); [left; reflexivity|].
  destruct (L c Ic) as (k & (sel & [_ Hs] & Hk) & Hkn). assert (Ij : In j sel).
  { apply Hs. exists (1%Z, (1, 0, 0)%R). split; [exact Ej|]. split; [|split; [reflexivity|intros ->; congruence]]. exists (8%Z, (0, 0, 0)%R). split; [exact Ec|]. unfold strictly_within. apply Rleb_false. cbn [snd].
    rewrite vdist_norm2. assert (X1 : dist2 (1, 0, 0)%R (0, 0, 0)%R = 1%R) by (unfold dist2; vec_unfold; ring). rewrite X1, sqrt_1. lra. }
  destruct sel; [destruct Ij|]. cbn in Hk. lia.
Qed.
Lemma odd3 : positive_odd 3.
Proof. split; [lia|exists 1%Z; reflexivity]. Qed.
Lemma two_frames_regular : Forall regular [single_frame; cube_frame].
Proof. repeat constructor; [exact (proj1 single_regular)|exact (proj2 single_regular)|exact (proj1 cube_regular)|exact (proj2 cube_regular)]. Qed.
Lemma cube_off : none_on_cutoff (3 / 2)%R 3 3 3 cube_frame.
Proof. apply whole_off; try reflexivity; [exact cube_regular|exact odd3|exact odd3|exact odd3|]. repeat constructor; [exists 0%Z, 0%Z, 0%Z|exists 1%Z, 0%Z, 0%Z]; reflexivity. Qed.
Lemma two_frames_width : exists d m, collection_max_elements (3 / 2)%R 3 3 3 8 toy_an ["H"%string] [single_frame; cube_frame] = Ok d /\ lookup d "H"%string = Ok m /\ 0 < m.
Proof.
  destruct (collection_elements (3 / 2)%R 3 3 3 odd3 odd3 odd3 ltac:(lra) toy_an ["H"%string] ltac:(intros e [<-|[]]; exists 1%Z; reflexivity) 8 [single_frame; cube_frame] ltac:(lia) ltac:(discriminate) two_frames_regular) as (d & Ed & _ & Hd).
  destruct (Hd "H"%string 1%Z (or_introl eq_refl) eq_refl) as (m & Em & Hm). exists d, m. split; [exact Ed|]. split; [exact Em|]. exact (hydrogen_near m Hm).
Qed.

(** A collection of two structures of one atom, and a directory holding an earlier save. *)
Definition toy_struct : struct (F := Z) := mkStruct [1%Z] [1%Z] [[0%Z]] [[0%Z]] [0%Z].
Definition earlier : listing := [("0", Folder [("box.npy", File "1")]); ("1", Folder [("box.npy", File "2")]); ("notes", File "mine")]%string.
