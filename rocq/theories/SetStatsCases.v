(** Statistics of a set of structures: small sets. *)
From Coq Require Import Permutation Lia ZifyBool Lra.
From Verif Require Import Arr Vec StructModel SiteIndexModel SeModel NeighModel StatsModel InferModel SetStatsModel NeighSpec SeSpec SiteIndexSpec StructSpec InferSpec StatsSpec SetStatsSpec.
From Verif Require Import StructProofs StructGlue NeighProofs NeighReal SiteIndexProofs StatsProofs InferRows InferCases SetStatsProofs SetStatsRows SetStatsFinal.
From Verif Require Import NeighSpec InferSpec SetStatsSpec StatsSpec.
Local Open Scope nat_scope.

Definition two : structure := mk_structure axis_a axis_b axis_c two_sites.
Definition alone : structure := mk_structure axis_a axis_b axis_c [atom_h].
Definition atom_h' : Z * vec := (1%Z, (0, 1, 0)%R).
Definition water : structure := mk_structure axis_a axis_b axis_c [atom_o; atom_h; atom_h'].
Lemma two_regular : regular two.
Proof. split; [exact det_ne|]. split; [exact two_separated|discriminate]. Qed.
Lemma alone_regular : regular alone.
Proof. split; [exact det_ne|]. split; [|discriminate]. intros [|i] [|j] p q Hi Hj _; [reflexivity|destruct j; discriminate|destruct i; discriminate|destruct i; discriminate]. Qed.
Lemma water_regular : regular water.
Proof.
  split; [exact det_ne|]. split; [|discriminate]. intros i j p q Hi Hj (a & b & c & e & f & g & Eq & B1 & B2 & B3).
  destruct i as [|[|[|i]]]; destruct j as [|[|[|j]]]; cbn in Hi, Hj; try reflexivity; try (destruct i; discriminate); try (destruct j; discriminate);
  injection Hi as <-; injection Hj as <-; exfalso; unfold axis_a, axis_b, axis_c in Eq; vec_unfold; injection Eq as E0 E1 E2;
  first [apply (no_tenth a e B1); left; lra | apply (no_tenth a e B1); right; lra | apply (no_tenth b f B2); left; lra | apply (no_tenth b f B2); right; lra].
Qed.

Lemma two_room zws : (forall zw, In zw zws -> 0 < snd zw) -> room 2 1 1 1 zws 8 two.
Proof.
  intros Hz atoms i s Hc Is Fs Hi. cbn [la lb lc atoms_of two] in Hc, Is. assert (s = atom_o) by (destruct Is as [<-|[<-|[]]]; [reflexivity|discriminate]). subst s.
  assert (Ih := proj2 (two_in atoms Hc atom_h) (or_intror eq_refl)). apply In_nth_error in Ih. destruct Ih as (h & Hh). apply (two_fits atoms Hc i h Hi Hh); [left; reflexivity|exact Hz].
Qed.

Lemma environment_one row : environment 2 1 (1, 0, 0)%R row -> row = [1; 1; 0; 0]%R.
Proof.
  intros (s & (H1 & _) & ->). assert (L : length_of (1, 0, 0)%R = 1%R) by (unfold length_of, vx, vy, vz; cbn [fst snd]; replace (1 * 1 + 0 * 0 + 0 * 0)%R with (1 * 1)%R by ring; apply sqrt_square; lra). rewrite L in *. rewrite (H1 ltac:(lra)). unfold vx, vy, vz. cbn [fst snd].
  repeat (apply (f_equal2 cons); [lra|]). reflexivity.
Qed.

Notation make ss is cs zws := (from_set (insertion_argsort Rleb) ss is 2 1 cs (map fst zws) (map snd zws) 1 1 1).
Lemma two_rows zws block En : zws = [(1%Z, 1)] \/ zws = [(1%Z, 2)] -> (forall d, (0 < length_of d)%R -> environment 2 1 d (En d)) -> rows_of_structure 2 1 1 1 zws 8 En two block ->
  as_rows block = (1, 1, 0, 0)%R :: repeat (0, 0, 0, 0)%R (list_sum (map snd zws) - 1).
Proof.
  intros Hz HE (atoms & centres & Hc & Hm & F). cbn [la lb lc atoms_of two] in Hc, Hm. cbn in Hm. destruct centres as [|o [|? ?]]; try discriminate. assert (Ho : nth_error atoms o = Some atom_o) by (injection Hm as Q; exact Q).
  inversion F as [|? rows ? l (cen & sel & Hcen & Hsel & Fs) F']; subst. inversion F'; subst. assert (cen = atom_o) by congruence. subst cen.
  assert (Ih := proj2 (two_in atoms Hc atom_h) (or_intror eq_refl)). apply In_nth_error in Ih. destruct Ih as (h & Hh).
  assert (S1 : sel 1%Z = [h]). { assert (X : pair_neighbours vdist Rleb atoms 2%R 1 o (sel 1%Z)) by (destruct Hz as [-> | ->]; apply (Hsel _ (or_introl eq_refl))). destruct X as [X _]. apply (two_lists atoms Hc o h Ho Hh o 1%Z _ (or_introl eq_refl)) in X. rewrite Nat.eqb_refl in X. exact X. }
  assert (D : vsub (snd atom_h) (snd atom_o) = (1, 0, 0)%R) by (unfold atom_h, atom_o; apply vec_eq; vec_unfold; ring).
  assert (Row : forall row, slot_raw atoms atom_o En (Some h) row -> row = [1; 1; 0; 0]%R).
  { intros row (a & Ha & ->). assert (a = atom_h) by congruence. subst a. rewrite D. apply environment_one, HE. unfold length_of, vx, vy, vz. cbn [fst snd]. apply sqrt_lt_R0. lra. }
  destruct Hz as [-> | ->]; unfold slots in Fs; cbn [map fst snd] in Fs; rewrite S1 in Fs; cbn in Fs.
  - inversion Fs as [|? r1 ? l1 G1 Fs1]; subst. inversion Fs1; subst. rewrite (Row _ G1). reflexivity.
  - inversion Fs as [|? r1 ? l1 G1 Fs1]; subst. inversion Fs1 as [|? r2 ? l2 G2 Fs2]; subst. inversion Fs2; subst. rewrite (Row _ G1). cbn [slot_raw] in G2. rewrite G2. reflexivity.
Qed.
Lemma two_made zws : zws = [(1%Z, 1)] \/ zws = [(1%Z, 2)] -> exists n, make [two] [0%Z] [8%Z] zws = Ok n /\ n_davgs n = [[1 / (INR (list_sum (map snd zws)) + 1 / 10 ^ 15); 0; 0; 0]]%R.
Proof.
  intros Hz. assert (Hp : forall zw, In zw zws -> fst zw <> 0%Z /\ 0 < snd zw) by (destruct Hz as [-> | ->]; intros zw [<-|[]]; cbn; lia).
  destruct (set_stats_ok (insertion_argsort Rleb) 2 1 1 1 1 (insertion_sorts Rleb Rleb_total) odd1 odd1 odd1 ltac:(lra) ltac:(lra) zws [two] [0%Z] [two] [8%Z]) as (En & n & samples & HE & Fs & Er & Ea & _).
  - split; [destruct Hz as [-> | ->]; discriminate|exact Hp].
  - repeat constructor. cbn. lia.
  - discriminate.
  - constructor; [exact two_regular|constructor].
  - discriminate.
  - intros c [<-|[]]. split; [constructor; [apply two_room; intros zw Iz; apply (Hp zw Iz)|constructor]|]. exists 1. intros t [<-|[]]. reflexivity.
  - exists n. split; [exact Er|]. rewrite Ea. inversion Fs as [|? rows ? l (blocks & Fb & P) Fs']; subst. inversion Fs'; subst. inversion Fb as [|? b ? l' Hb Fb']; subst. inversion Fb'; subst. cbn [flat_map] in P. rewrite app_nil_r, (two_rows zws b En Hz HE Hb) in P.
    cbn [map]. f_equal. unfold sample_averages. f_equal. unfold mean. rewrite (total_perm _ _ (Permutation_map rad P)), map_length, (Permutation_length P).
    assert (Q : (0 < 1 / 10 ^ 15)%R) by (apply Rdiv_lt_0_compat; [lra|apply pow_lt; lra]). set (q := (1 / 10 ^ 15)%R) in *. destruct Hz as [-> | ->]; cbn [map snd list_sum fold_right Nat.add Nat.sub repeat length total]; unfold rad; cbn [fst snd INR]; field; lra.
Qed.
Lemma width_matters : exists n n', make [two] [0%Z] [8%Z] [(1%Z, 1)] = Ok n /\ make [two] [0%Z] [8%Z] [(1%Z, 2)] = Ok n' /\ n_davgs n <> n_davgs n'.
Proof.
  destruct (two_made [(1%Z, 1)] (or_introl eq_refl)) as (n & En & Ea), (two_made [(1%Z, 2)] (or_intror eq_refl)) as (n' & En' & Ea'). exists n, n'. split; [exact En|]. split; [exact En'|]. rewrite Ea, Ea'. cbn [map snd list_sum fold_right Nat.add INR]. intros Q. injection Q as Q.
  assert (P : (0 < 1 / 10 ^ 15)%R) by (apply Rdiv_lt_0_compat; [lra|apply pow_lt; lra]). set (q := (1 / 10 ^ 15)%R) in *. assert (/ (1 + q) = / (1 + 1 + q))%R by (unfold Rdiv in Q; lra). assert (L := Rinv_lt_contravar (1 + q) (1 + 1 + q) ltac:(nra) ltac:(lra)). lra.
Qed.

(** Different numbers of oxygen atoms. *)
Lemma unequal_case : Forall2 (picked [two; alone]) [0%Z; (-1)%Z] [two; alone] /\ Forall regular [two; alone] /\ number_of two 8 <> number_of alone 8.
Proof.
  split; [constructor; [left; split; [lia|reflexivity]|constructor; [right; exists 1; split; [reflexivity|]; split; [cbn; lia|reflexivity]|constructor]]|].
  split; [constructor; [exact two_regular|constructor; [exact alone_regular|constructor]]|discriminate].
Qed.
(** An oxygen atom with two neighbours and one column. *)
Lemma narrow_case : regular water /\ no_room 2 1 1 1 [(1%Z, 1)] 8 water.
Proof.
  split; [exact water_regular|]. intros atoms Hc. cbn [la lb lc atoms_of water] in *.
  assert (W : forall a, In a atoms <-> a = atom_o \/ a = atom_h \/ a = atom_h').
  { intros a. rewrite (proj2 Hc a). split.
    - intros (s & p & q & r & Is & Bx & ->). unfold in_box in Bx. assert (p = 0 /\ q = 0 /\ r = 0)%Z as (-> & -> & ->) by lia. rewrite comb_zero, <- surjective_pairing. destruct Is as [<-|[<-|[<-|[]]]]; auto.
    - intros [-> | [-> | ->]]; [exists atom_o|exists atom_h|exists atom_h']; exists 0%Z, 0%Z, 0%Z; (split; [cbn; auto|]; split; [unfold in_box; lia|]); rewrite comb_zero, <- surjective_pairing; reflexivity. }
  assert (Same : forall j k a, nth_error atoms j = Some a -> nth_error atoms k = Some a -> j = k).
  { intros j k a Hj Hk. apply (proj1 (NoDup_nth_error (map snd atoms)) (proj1 Hc)); [rewrite map_length; apply nth_error_Some; congruence|]. rewrite !nth_error_map, Hj, Hk. reflexivity. }
  assert (Io := proj2 (W atom_o) (or_introl eq_refl)). assert (Ih := proj2 (W atom_h) (or_intror (or_introl eq_refl))). assert (Ik := proj2 (W atom_h') (or_intror (or_intror eq_refl))).
  apply In_nth_error in Io, Ih, Ik. destruct Io as (o & Ho), Ih as (h & Hh), Ik as (k & Hk).
  assert (Nhk : h <> k). { intros ->. assert (X : atom_h = atom_h') by congruence. unfold atom_h, atom_h' in X. injection X as X _. lra. }
  assert (Noh : o <> h) by (intros ->; assert (X : atom_o = atom_h) by congruence; discriminate X). assert (Nok : o <> k) by (intros ->; assert (X : atom_o = atom_h') by congruence; discriminate X).
  exists o, atom_o, (1%Z, 1), 2. split; [left; reflexivity|]. split; [reflexivity|]. split; [exact Ho|]. split; [left; reflexivity|]. split; [|cbn; lia].
  exists [h; k]. split; [|reflexivity]. split; [constructor; [intros [->|[]]; contradiction|constructor; [intros []|constructor]]|].
  assert (D1 : vdist (snd atom_h') (snd atom_o) = 1%R) by (rewrite vdist_norm2; replace (dist2 _ _) with (1 * 1)%R by (unfold atom_o, atom_h'; vec_unfold; ring); apply sqrt_square; lra).
  intros j. split.
  - intros [<-|[<-|[]]]; eexists; (split; [eassumption|]); (split; [|split; [reflexivity|auto]]); exists atom_o; (split; [exact Ho|]); unfold within; [rewrite (proj1 dist_oh)|rewrite D1]; apply Rleb_spec; lra.
  - intros (a & Ha & _ & Fa & Na). destruct (proj1 (W a) (nth_error_In _ _ Ha)) as [-> | [-> | ->]]; [discriminate Fa|left; exact (Same _ _ _ Hh Ha)|right; left; exact (Same _ _ _ Hk Ha)].
Qed.
