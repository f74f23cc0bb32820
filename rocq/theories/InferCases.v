(** The input of a force field: consequences and a structure with two atoms. *)
From Verif Require Import Arr Vec StructModel SiteIndexModel SeModel NeighModel StatsModel InferModel NeighSpec SeSpec SiteIndexSpec StructSpec.
From Verif Require Import StructProofs StructGlue NeighProofs NeighReal SiteIndexProofs InferRows InferFinal InferSpec.
From Coq Require Import ZifyBool.
Open Scope nat_scope.

(** *** Two atoms *)
Definition atom_o : Z * vec := (8%Z, (0, 0, 0)%R).
Definition atom_h : Z * vec := (1%Z, (1, 0, 0)%R).
Lemma odd1 : positive_odd 1. Proof. split; [lia|exists 0%Z; reflexivity]. Qed.
Lemma dist_oh : vdist (snd atom_h) (snd atom_o) = 1%R /\ vdist (snd atom_o) (snd atom_h) = 1%R.
Proof. split; rewrite vdist_norm2; replace (dist2 _ _) with (1 * 1)%R by (unfold atom_o, atom_h; vec_unfold; ring); apply sqrt_square; lra. Qed.

Section Two.
Variable atoms : list (Z * vec).
Hypothesis Hc : copies axis_a axis_b axis_c 1 1 1 two_sites atoms.
Lemma two_in a : In a atoms <-> a = atom_o \/ a = atom_h.
Proof.
  rewrite (proj2 Hc a). split.
  - intros (s & p & q & r & Is & Bx & ->). unfold in_box in Bx. assert (p = 0 /\ q = 0 /\ r = 0)%Z as (-> & -> & ->) by lia. rewrite comb_zero, <- surjective_pairing. destruct Is as [<-|[<-|[]]]; [left|right]; reflexivity.
  - intros [-> | ->]; [exists atom_o|exists atom_h]; exists 0%Z, 0%Z, 0%Z; (split; [cbn; auto|]; split; [unfold in_box; lia|]); rewrite comb_zero, <- surjective_pairing; reflexivity.
Qed.
Lemma two_same j k a : nth_error atoms j = Some a -> nth_error atoms k = Some a -> j = k.
Proof. intros Hj Hk. apply (proj1 (NoDup_nth_error (map snd atoms)) (proj1 Hc)); [rewrite map_length; apply nth_error_Some; congruence|]. rewrite !nth_error_map, Hj, Hk. reflexivity. Qed.
Variables (o h : nat).
Hypothesis Ho : nth_error atoms o = Some atom_o.
Hypothesis Hh : nth_error atoms h = Some atom_h.
Lemma two_near c z j : c = o \/ c = h -> ((exists a, nth_error atoms j = Some a /\ of_element z (near vdist Rleb atoms 2%R) c j a) <-> (c = o /\ z = 1%Z /\ j = h) \/ (c = h /\ z = 8%Z /\ j = o)).
Proof.
  intros Hcc. destruct dist_oh as [D1 D2]. assert (Noh : o <> h) by (intros ->; rewrite Ho in Hh; discriminate). split.
  - intros (a & Ha & _ & Ez & Nj). destruct (proj1 (two_in a) (nth_error_In _ _ Ha)) as [->| ->]; [assert (j = o) by (apply (two_same _ _ atom_o); assumption)|assert (j = h) by (apply (two_same _ _ atom_h); assumption)]; subst j; cbn in Ez; destruct Hcc; subst; auto; contradiction.
  - intros [(-> & -> & ->)|(-> & -> & ->)].
    + exists atom_h. split; [exact Hh|]. split; [|split; [reflexivity|auto]]. exists atom_o. split; [exact Ho|]. unfold within. rewrite D1. apply Rleb_spec. lra.
    + exists atom_o. split; [exact Ho|]. split; [|split; [reflexivity|exact Noh]]. exists atom_h. split; [exact Hh|]. unfold within. rewrite D2. apply Rleb_spec. lra.
Qed.
Lemma two_lists c z sel : c = o \/ c = h -> (lists (of_element z (near vdist Rleb atoms 2%R) c) atoms sel <->
  sel = if (c =? o) && (z =? 1)%Z then [h] else if (c =? h) && (z =? 8)%Z then [o] else []).
Proof.
  intros Hcc. assert (Noh : o <> h) by (intros E; rewrite E, Hh in Ho; discriminate). unfold lists.
  assert (X : (forall j, In j sel <-> exists a, nth_error atoms j = Some a /\ of_element z (near vdist Rleb atoms 2%R) c j a) <-> (forall j, In j sel <-> (c = o /\ z = 1%Z /\ j = h) \/ (c = h /\ z = 8%Z /\ j = o))).
  { split; intros H j; rewrite (H j); [|symmetry]; apply two_near; exact Hcc. }
  rewrite X. clear X. assert (One : forall k, NoDup sel /\ (forall j, In j sel <-> j = k) <-> sel = [k]).
  { intros k. split; [|intros ->; split; [repeat constructor; intros []|intros j; cbn; intuition congruence]]. intros [Nd H]. destruct sel as [|x [|y l]]; [destruct (proj2 (H k) eq_refl)| |].
    - f_equal. apply H. left. reflexivity.
    - exfalso. assert (x = k) by (apply H; left; reflexivity). assert (y = k) by (apply H; right; left; reflexivity). inversion Nd as [|? ? N _]; subst. apply N. left. reflexivity. }
  assert (Nil : forall Q : nat -> Prop, (forall j, ~ Q j) -> (NoDup sel /\ (forall j, In j sel <-> Q j) <-> sel = [])).
  { intros Q HQ. split; [|intros ->; split; [constructor|intros j; split; [intros []|intros K; destruct (HQ j K)]]]. intros [_ H]. destruct sel as [|x l]; [reflexivity|]. exfalso. apply (HQ x), H. left. reflexivity. }
  destruct (c =? o) eqn:E1; destruct (z =? 1)%Z eqn:E2; cbn [andb].
  1: { rewrite <- (One h). apply Nat.eqb_eq in E1. apply Z.eqb_eq in E2. split; intros [Nd H]; (split; [exact Nd|]); intros j; rewrite (H j); intuition lia. }
  all: destruct (c =? h) eqn:E3; destruct (z =? 8)%Z eqn:E4; cbn [andb].
  all: try (rewrite <- (One o); apply Nat.eqb_eq in E3; apply Z.eqb_eq in E4; try apply Nat.eqb_eq in E1; split; intros [Nd H]; (split; [exact Nd|]); intros j; rewrite (H j); intuition lia).
  all: apply Nil; intros j; lia.
Qed.
Lemma two_fits c zws : c = o \/ c = h -> (forall zw, In zw zws -> 0 < snd zw) -> fits vdist Rleb atoms 2%R zws c.
Proof.
  intros Hcc Hz zw Iz. specialize (Hz zw Iz). eexists. split; [eexists; split; [apply (proj2 (two_lists c (fst zw) _ Hcc)); reflexivity|reflexivity]|].
  destruct ((c =? o) && (fst zw =? 1)%Z); [cbn; lia|]. destruct ((c =? h) && (fst zw =? 8)%Z); cbn; lia.
Qed.
End Two.

(** A rounding to an integer. *)
Definition nearest (x : R) : Z := (up (x - 1 / 2))%Z.
Lemma nearest_ok x : (Rabs (x - IZR (nearest x)) <= 1 / 2)%R.
Proof. unfold nearest. destruct (archimed (x - 1 / 2)) as [H1 H2]. apply Rabs_le. lra. Qed.

Definition avg1 : list R := [1; 0; 0; 0]%R.
Definition std1 : list R := [1; 1; 1; 1]%R.
Notation prep cs zws := (preprocess (insertion_argsort Rleb) nearest axis_a axis_b axis_c 2 1 1 1 1 (map (fun ce => fst (snd ce)) cs) (map (fun ce => snd (snd ce)) cs) (map fst cs) (map fst zws) (map snd zws) true two_sites).
Lemma padding_row row : normalized avg1 std1 [0; 0; 0; 0]%R row -> row = [-1; 0; 0; 0]%R.
Proof.
  intros [L H]. destruct (four row L) as (a & b & c & d & ->). assert (H0 := H 0 ltac:(lia)). assert (H1 := H 1 ltac:(lia)). assert (H2 := H 2 ltac:(lia)). assert (H3 := H 3 ltac:(lia)).
  unfold entry, avg1, std1 in *. cbn [nth] in *. repeat (apply (f_equal2 cons); [lra|]). reflexivity.
Qed.
Lemma det_ne : det axis_a axis_b axis_c <> 0%R.
Proof. rewrite det_cube. lra. Qed.
Lemma sites_ne : two_sites <> []. Proof. discriminate. Qed.

Definition cs_oh : list (Z * (list R * list R)) := [(8%Z, (avg1, std1)); (1%Z, (avg1, std1))].
Definition cs_ho : list (Z * (list R * list R)) := [(1%Z, (avg1, std1)); (8%Z, (avg1, std1))].
Definition cols_oh : list (Z * nat) := [(8%Z, 1); (1%Z, 1)].
Definition cols_ho : list (Z * nat) := [(1%Z, 1); (8%Z, 1)].

Lemma two_run cs cols : (cs = cs_oh /\ cols = cols_oh) \/ (cs = cs_ho /\ cols = cols_ho) ->
  exists E atoms centres out, (forall d, (0 < length_of d)%R -> environment 2 1 d (E d)) /\ copies axis_a axis_b axis_c 1 1 1 two_sites atoms /\ map (nth_error atoms) centres = map Some (grouped (map fst cs) two_sites) /\
  prep cs cols_ho = Ok out /\ forall i c, nth_error centres i = Some c -> exists cen avg std pos env der ind,
      nth_error atoms c = Some cen /\ In (fst cen, (avg, std)) cs /\
      nth_error (rc out) i = Some pos /\ nth_error (tildeR out) i = Some env /\ nth_error (tildeR_deriv out) i = Some der /\ nth_error (list_neigh out) i = Some ind /\
      row_holds axis_a axis_b axis_c two_sites atoms 2 vdist Rleb cols_ho cols c cen avg std E pos env der ind.
Proof.
  intros Hcase. destruct (preprocess_all (insertion_argsort Rleb) nearest axis_a axis_b axis_c nearest_ok (insertion_sorts Rleb Rleb_total) det_ne 2 1 1 1 1 two_sites odd1 odd1 odd1 two_separated ltac:(lra) ltac:(lra) sites_ne cols_ho cols cs) as (E & atoms & centres & HE & Hc & Hm & _ & Hok & _).
  - destruct Hcase as [[-> ->]|[-> ->]]; discriminate.
  - destruct Hcase as [[-> ->]|[-> ->]]; reflexivity.
  - destruct Hcase as [[-> ->]|[-> ->]]; intros x; cbn; tauto.
  - repeat constructor; cbn; intuition lia.
  - destruct Hcase as [[-> ->]|[-> ->]]; repeat constructor; cbn; intuition lia.
  - intros zw [<-|[<-|[]]]; cbn; lia.
  - destruct Hcase as [[-> ->]|[-> ->]]; intros ce [<-|[<-|[]]]; split; reflexivity.
  - assert (G : Forall (fits vdist Rleb atoms 2%R cols_ho) centres).
    { assert (Io := proj2 (two_in atoms Hc atom_o) (or_introl eq_refl)). assert (Ih := proj2 (two_in atoms Hc atom_h) (or_intror eq_refl)). apply In_nth_error in Io, Ih. destruct Io as (o & Ho), Ih as (h & Hh).
      apply Forall_forall. intros c Ic. apply (two_fits atoms Hc o h Ho Hh); [|intros zw [<-|[<-|[]]]; cbn; lia].
      assert (X : In (nth_error atoms c) (map (nth_error atoms) centres)) by (apply in_map; exact Ic). rewrite Hm in X. apply in_map_iff in X. destruct X as (s & X & Is). symmetry in X.
      destruct (proj1 (two_in atoms Hc s) (nth_error_In _ _ X)) as [->| ->]; [left|right]; eapply two_same; eassumption. }
    destruct (Hok G) as (out & Er & _ & _ & _ & _ & _ & Hr). exists E, atoms, centres, out. auto.
Qed.

(** Elements listed in different orders. *)
Lemma order_differs : exists E out e n0, (forall d, (0 < length_of d)%R -> environment 2 1 d (E d)) /\ prep cs_oh cols_ho = Ok out /\
  nth_error (rc out) 0 = Some [(1, 0, 0)%R; (0, 0, 0)%R] /\ nth_error (list_neigh out) 0 = Some [2; n0] /\
  nth_error (tildeR out) 0 = Some [[-1; 0; 0; 0]%R; e] /\ normalized avg1 std1 (E (1, 0, 0)%R) e.
Proof.
  destruct (two_run cs_oh cols_oh (or_introl (conj eq_refl eq_refl))) as (E & atoms & centres & out & HE & Hc & Hm & Er & Rows).
  cbn in Hm. destruct centres as [|o [|h [|? ?]]]; try discriminate. cbn [map] in Hm. assert (Ho : nth_error atoms o = Some atom_o) by (injection Hm as Q _; exact Q). assert (Hh : nth_error atoms h = Some atom_h) by (injection Hm as _ Q; exact Q).
  destruct (Rows 0 o eq_refl) as (cen & avg & std & pos & env & der & ind & Ecen & Ist & P1 & P2 & _ & P4 & sel & Hsel & F1 & F2 & F3 & _).
  assert (Qc : cen = atom_o) by congruence. rewrite Qc in *. clear Qc cen. assert (Qs : avg = avg1 /\ std = std1) by (destruct Ist as [Q|[Q|[]]]; injection Q as Q1 Q2 ; auto; try discriminate).
  destruct Qs as [-> ->]. 
  assert (S1 : sel 1%Z = [h]). { destruct (Hsel (1%Z, 1) (or_introl eq_refl)) as [[X _] _]. cbn [fst] in X. apply (two_lists atoms Hc o h Ho Hh o 1%Z _ (or_introl eq_refl)) in X. rewrite Nat.eqb_refl in X. exact X. }
  assert (S8 : sel 8%Z = []). { destruct (Hsel (8%Z, 1) (or_intror (or_introl eq_refl))) as [[X _] _]. cbn [fst] in X. apply (two_lists atoms Hc o h Ho Hh o 8%Z _ (or_introl eq_refl)) in X. rewrite Nat.eqb_refl in X. cbn [andb Z.eqb Pos.eqb] in X.
    assert (Ne : (o =? h) = false) by (apply Nat.eqb_neq; intros Q; rewrite Q, Hh in Ho; discriminate). rewrite Ne in X. exact X. }
  assert (Z1 : slots sel cols_ho = [Some h; None]) by (unfold slots, cols_ho; cbn [map fst snd]; rewrite S1, S8; reflexivity).
  assert (Z2 : slots sel cols_oh = [None; Some h]) by (unfold slots, cols_oh; cbn [map fst snd]; rewrite S1, S8; reflexivity).
  rewrite Z1 in F1, F2. rewrite Z2 in F3.
  inversion F1 as [|? p0 ? l1 G1 F1']; subst. inversion F1' as [|? p1 ? l2 G2 F1'']; subst. inversion F1''; subst. clear F1 F1' F1''.
  inversion F2 as [|? n0 ? l1 N1 F2']; subst. inversion F2' as [|? n1 ? l2 N2 F2'']; subst. inversion F2''; subst. clear F2 F2' F2''.
  inversion F3 as [|? e0 ? l1 E1 F3']; subst. inversion F3' as [|? e1 ? l2 E2 F3'']; subst. inversion F3''; subst. clear F3 F3' F3''.
  cbn [slot_position] in G1, G2. destruct G1 as (a & Ha & Ev). assert (Qa : a = atom_h) by congruence. rewrite Qa in Ev.
  cbn [slot_index] in N1. destruct N1 as (a1 & m & Ha1 & (s & p & q & r & Hs & Es) & En). assert (Qa1 : a1 = atom_h) by congruence.
  assert (m = 1). { rewrite Qa1 in Es. destruct m as [|[|m]]; cbn in Hs; [|reflexivity|destruct m; discriminate]. injection Hs as <-. cbn [fst] in Es. injection Es as Es _. discriminate. } subst m.
  cbn [slot_environment] in E1, E2. destruct E2 as (a2 & Ha2 & E2). assert (Qa2 : a2 = atom_h) by congruence. rewrite Qa2 in E2.
  assert (D : vsub (snd atom_h) (snd atom_o) = (1, 0, 0)%R) by (unfold atom_h, atom_o; apply vec_eq; vec_unfold; ring). rewrite D in *.
  exists E, out, e1, n1. split; [exact HE|]. split; [exact Er|]. split; [rewrite P1, Ev, G2; reflexivity|]. split; [rewrite P4, En; reflexivity|]. split; [rewrite P2, (padding_row _ E1); reflexivity|exact E2].
Qed.

(** A structure whose elements are not grouped in the order of the rows. *)
Lemma ungrouped : exists out n0, prep cs_ho cols_ho = Ok out /\
  nth_error (rc out) 0 = Some [(0, 0, 0)%R; (-1, 0, 0)%R] /\ nth_error (list_neigh out) 0 = Some [n0; 1] /\ nth_error (grouped [1; 8]%Z two_sites) 0 = Some atom_h.
Proof.
  destruct (two_run cs_ho cols_ho (or_intror (conj eq_refl eq_refl))) as (E & atoms & centres & out & HE & Hc & Hm & Er & Rows).
  cbn in Hm. destruct centres as [|h [|o [|? ?]]]; try discriminate. cbn [map] in Hm. assert (Hh : nth_error atoms h = Some atom_h) by (injection Hm as Q _; exact Q). assert (Ho : nth_error atoms o = Some atom_o) by (injection Hm as _ Q; exact Q).
  destruct (Rows 0 h eq_refl) as (cen & avg & std & pos & env & der & ind & Ecen & Ist & P1 & P2 & _ & P4 & sel & Hsel & F1 & F2 & _).
  assert (Qc : cen = atom_h) by congruence. rewrite Qc in *. clear Qc cen.
  assert (Ne : (h =? o) = false) by (apply Nat.eqb_neq; intros Q; rewrite Q, Ho in Hh; discriminate).
  assert (S1 : sel 1%Z = []). { destruct (Hsel (1%Z, 1) (or_introl eq_refl)) as [[X _] _]. cbn [fst] in X. apply (two_lists atoms Hc o h Ho Hh h 1%Z _ (or_intror eq_refl)) in X. rewrite Nat.eqb_refl, Ne in X. exact X. }
  assert (S8 : sel 8%Z = [o]). { destruct (Hsel (8%Z, 1) (or_intror (or_introl eq_refl))) as [[X _] _]. cbn [fst] in X. apply (two_lists atoms Hc o h Ho Hh h 8%Z _ (or_intror eq_refl)) in X. rewrite Nat.eqb_refl, Ne in X. exact X. }
  assert (Z1 : slots sel cols_ho = [None; Some o]) by (unfold slots, cols_ho; cbn [map fst snd]; rewrite S1, S8; reflexivity).
  rewrite Z1 in F1, F2.
  inversion F1 as [|? p0 ? l1 G1 F1']; subst. inversion F1' as [|? p1 ? l2 G2 F1'']; subst. inversion F1''; subst. clear F1 F1' F1''.
  inversion F2 as [|? n0 ? l1 N1 F2']; subst. inversion F2' as [|? n1 ? l2 N2 F2'']; subst. inversion F2''; subst. clear F2 F2' F2''.
  cbn [slot_position] in G1, G2. destruct G2 as (a & Ha & Ev). assert (Qa : a = atom_o) by congruence. rewrite Qa in Ev.
  cbn [slot_index] in N2. destruct N2 as (a1 & m & Ha1 & (s & p & q & r & Hs & Es) & En). assert (Qa1 : a1 = atom_o) by congruence.
  assert (m = 0). { rewrite Qa1 in Es. destruct m as [|[|m]]; cbn in Hs; [reflexivity| |destruct m; discriminate]. injection Hs as <-. cbn [fst] in Es. injection Es as Es _. discriminate. } subst m.
  assert (D : vsub (snd atom_o) (snd atom_h) = (-1, 0, 0)%R) by (unfold atom_h, atom_o; apply vec_eq; vec_unfold; ring). rewrite D in *.
  exists out, n0. split; [exact Er|]. split; [rewrite P1, Ev, G1; reflexivity|]. split; [rewrite P4, En; reflexivity|reflexivity].
Qed.

(** *** Numbers of atoms *)
Lemma skip_seen seen l r : (forall z, In z l -> In z seen) -> first_occurrences seen (l ++ r) = first_occurrences seen r.
Proof.
  induction l as [|z l IH]; intros H; [reflexivity|]. cbn [app first_occurrences]. replace (existsb (Z.eqb z) seen) with true; [apply IH; intros y Hy; apply H; right; exact Hy|].
  symmetry. apply existsb_exists. exists z. split; [apply H; left; reflexivity|apply Z.eqb_refl].
Qed.
Lemma grouped_first {P} (sites : list (Z * P)) zs : forall seen, NoDup zs -> (forall z, In z zs -> ~ In z seen) -> first_occurrences seen (map fst (grouped zs sites)) = filter (present sites) zs.
Proof.
  induction zs as [|z zs IH]; intros seen Nd H; [reflexivity|]. inversion Nd as [|? ? Nz Nd']; subst. unfold grouped. cbn [flat_map]. rewrite map_app. fold (grouped zs sites). cbn [filter].
  assert (All : forall y, In y (map fst (filter (fun s => (fst s =? z)%Z) sites)) -> y = z). { intros y Hy. apply in_map_iff in Hy. destruct Hy as (s & <- & Is). apply filter_In in Is. apply Z.eqb_eq. apply Is. }
  destruct (present sites z) eqn:Pr.
  - destruct (map fst (filter (fun s => (fst s =? z)%Z) sites)) as [|y l] eqn:El.
    + exfalso. apply existsb_exists in Pr. destruct Pr as (s & Is & Es). assert (X : In (fst s) (map fst (filter (fun s => (fst s =? z)%Z) sites))) by (apply in_map, filter_In; split; assumption). rewrite El in X. destruct X.
    + assert (y = z) by (apply All; left; reflexivity). subst y. cbn [app first_occurrences]. replace (existsb (Z.eqb z) seen) with false.
      * f_equal. rewrite skip_seen by (intros y Hy; left; symmetry; apply All; right; exact Hy). apply IH; [exact Nd'|]. intros y Hy [<-|I]; [exact (Nz Hy)|exact (H y (or_intror Hy) I)].
      * symmetry. apply not_true_iff_false. intros X. apply existsb_exists in X. destruct X as (y & Iy & Ey). apply Z.eqb_eq in Ey. subst y. exact (H z (or_introl eq_refl) Iy).
  - destruct (filter (fun s => (fst s =? z)%Z) sites) as [|s l] eqn:El.
    + cbn [map app]. apply IH; [exact Nd'|]. intros y Hy. apply H. right. exact Hy.
    + exfalso. assert (X : In s (filter (fun s => (fst s =? z)%Z) sites)) by (rewrite El; left; reflexivity). apply filter_In in X. unfold present in Pr. assert (Y : existsb (fun s => (fst s =? z)%Z) sites = true) by (apply existsb_exists; exists s; exact X). congruence.
Qed.
Lemma grouped_natoms {P} (sites : list (Z * P)) zs : NoDup zs -> sites = grouped zs sites ->
  get_natoms P None sites = length sites :: map (fun z => length (filter (fun s => (fst s =? z)%Z) sites)) (filter (present sites) zs).
Proof.
  intros Nd E. assert (F : first_occurrences [] (map fst sites) = filter (present sites) zs) by (rewrite E at 1; apply grouped_first; [exact Nd|intros z _ []]).
  unfold get_natoms. cbv zeta. rewrite F. f_equal. apply map_ext. intros z. unfold count.
  generalize sites. intros l. induction l as [|s l IH]; [reflexivity|]. cbn [map filter]. rewrite Z.eqb_sym. destruct (fst s =? z)%Z; cbn [length]; rewrite IH; reflexivity.
Qed.

(** *** Statistics *)
Lemma bad_statistics argsort rnd A B C rcut rs s0 s1 s2 (davgs dstds : list (list R)) centers nbrs ms mark sites d : d = davgs \/ d = dstds ->
  length d <> length centers \/ Exists (fun r => length r <> 4) d ->
  preprocess argsort rnd A B C rcut rs s0 s1 s2 davgs dstds centers nbrs ms mark sites = Err AssertionError \/
  (exists e, structure_neighbors_v1 argsort A B C sites rcut s0 s1 s2 mark = Err e /\ preprocess argsort rnd A B C rcut rs s0 s1 s2 davgs dstds centers nbrs ms mark sites = Err e).
Proof.
  intros Hd Hs. unfold preprocess. destruct (structure_neighbors_v1 _ _ _ _ _ _ _ _ _ _) as [table|e]; [left|right; exists e; split; reflexivity]. cbn [bind].
  assert (F : stats_shape centers d = false).
  { unfold stats_shape. destruct Hs as [H|H]; [apply Nat.eqb_neq in H; rewrite H; reflexivity|]. apply Exists_exists in H. destruct H as (r & Ir & Lr). apply andb_false_iff. right. apply not_true_iff_false. intros X. rewrite forallb_forall in X. specialize (X r Ir). apply Nat.eqb_eq in X. contradiction. }
  destruct Hd as [<-|<-]; rewrite F; [|rewrite andb_false_r]; reflexivity.
Qed.
