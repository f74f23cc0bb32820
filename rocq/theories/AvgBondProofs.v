(** Lemmas about average bond lengths. *)
From Verif Require Import Arr Vec SeModel StructModel StructSpec StructProofs NeighModel NeighSpec NeighProofs NeighReal SiteIndexProofs AvgModel AvgSpec.
From Coq Require Import Permutation Lra Lia.
Local Open Scope R_scope.

(** *** One table *)
Lemma sum_list_app a b : sum_list (a ++ b) = sum_list a + sum_list b.
Proof. unfold sum_list. induction a as [|x a IH]; cbn; [ring|]. rewrite IH. ring. Qed.
Definition nonzero (d : R) : bool := if Req_EM_T d 0 then false else true.

Lemma nonzero_cases d : (d = 0 /\ nonzero d = false) \/ (d <> 0 /\ nonzero d = true).
Proof. unfold nonzero. destruct (Req_EM_T d 0); [left|right]; split; auto. Qed.
Lemma nonzero_0 : nonzero 0 = false.
Proof. destruct (nonzero_cases 0) as [[_ E]|[N _]]; [exact E|lra]. Qed.

Lemma where_ok (c : bool) (a2 : Z) (zs : list Z) (ds : list R) : length zs = length ds ->
  exists e, where_row (map (fun z => c && (z =? a2)%Z) zs) ds = Ok e /\
  sum_list e = sum_list (if c then map snd (filter (keep_bond a2) (combine zs ds)) else []) /\
  length (filter nonzero e) = length (if c then map snd (filter (keep_bond a2) (combine zs ds)) else []).
Proof.
  intros L. unfold where_row. rewrite map_length, L, Nat.eqb_refl. eexists. split; [reflexivity|].
  revert ds L; induction zs as [|z zs IH]; intros [|d ds] L; cbn in L; try lia; cbn [map combine filter].
  - destruct c; split; reflexivity.
  - destruct (IH ds) as [I1 I2]; [lia|]. clear IH. change (keep_bond a2 (z, d)) with ((z =? a2)%Z && nonzero d).
    set (e := map _ (combine (map _ zs) ds)) in *. clearbody e. cbn [fst snd]. destruct c; cbn [andb].
    + destruct (z =? a2)%Z; cbn [andb].
      * destruct (nonzero_cases d) as [[-> N]|[_ N]]; cbn [filter]; rewrite N.
        -- split; [|exact I2]. unfold sum_list in *. cbn [fold_right]. rewrite I1. ring.
        -- split; [unfold sum_list in *; cbn [map fold_right snd]; rewrite I1; reflexivity|]. cbn [map length snd]. rewrite I2. reflexivity.
      * cbn [filter]. rewrite nonzero_0. split; [|exact I2]. unfold sum_list in *. cbn [fold_right]. rewrite I1. ring.
    + cbn [filter]. rewrite nonzero_0. split; [|exact I2]. unfold sum_list in *. cbn [fold_right] in *. rewrite I1. ring.
Qed.

Lemma masked_rows a1 a2 table : Forall rectangular table ->
  exists ms rows, mapM (row_mask a1 a2) (map (fun r => fst (fst r)) table) = Ok ms /\
  mapM (fun mr : (bool * list bool) * (list Z * list R * list vec) => where_row (snd (fst mr)) (snd (fst (snd mr)))) (combine ms table) = Ok rows /\
  sum_list (concat rows) = sum_list (flat_map (row_bonds a1 a2) table) /\
  length (filter nonzero (concat rows)) = length (flat_map (row_bonds a1 a2) table).
Proof.
  induction table as [|[[an d] c] table IH]; intros F.
  - exists [], []. repeat split.
  - inversion F as [|? ? [Hn Hl] F']; subst. cbn [fst snd] in *. destruct (IH F') as (ms & rows & E1 & E2 & S1 & L1).
    destruct an as [|z0 zs]; [contradiction|]. destruct d as [|d0 ds]; [discriminate|]. cbn [length] in Hl.
    destruct (where_ok (z0 =? a1)%Z a2 zs ds ltac:(lia)) as (e & We & Se & Le).
    exists (((z0 =? a1)%Z, false :: map (fun z => (z0 =? a1)%Z && (z =? a2)%Z) zs) :: ms), ((0 :: e) :: rows).
    split; [cbn [map mapM row_mask get nth_error bind fst]; rewrite E1; reflexivity|]. split.
    { cbn [combine mapM fst snd]. assert (W2 : where_row (false :: map (fun z => (z0 =? a1)%Z && (z =? a2)%Z) zs) (d0 :: ds) = Ok (0 :: e)).
      { unfold where_row in *. cbn [length]. destruct (Nat.eqb_spec (length (map (fun z => (z0 =? a1)%Z && (z =? a2)%Z) zs)) (length ds)) as [Q|Q]; [|discriminate].
        rewrite Q. rewrite Nat.eqb_refl. cbn [combine map fst]. injection We as <-. reflexivity. }
      rewrite W2. cbn [bind]. rewrite E2. reflexivity. }
    cbn [concat flat_map]. unfold row_bonds at 1 3. cbn [combine fst snd]. rewrite filter_app, !app_length, !sum_list_app.
    rewrite <- Se, <- Le, S1, L1. cbn [filter]. rewrite nonzero_0. split; [|reflexivity].
    unfold sum_list at 1. cbn [fold_right]. fold (sum_list e). ring.
Qed.

Lemma mean_average l : mean_of (sum_list l) (length l) = average l.
Proof. destruct l; reflexivity. Qed.

Lemma avg_bond_table a1 a2 table : table <> [] -> Forall rectangular table ->
  get_avg_bond_length table a1 a2 = Ok (average (flat_map (row_bonds a1 a2) table)).
Proof.
  intros Hn F. destruct (masked_rows a1 a2 table F) as (ms & rows & E1 & E2 & S1 & L1). unfold get_avg_bond_length, masks.
  destruct table as [|r table]; [contradiction|]. cbn [map] in *. rewrite E1. cbn [bind]. rewrite E2. cbn [bind].
  fold nonzero. rewrite S1, L1, mean_average. reflexivity.
Qed.

(** *** A structure *)
Lemma shows_map {A B} (f : B -> A) zero w (atoms : list B) sel row d0 : shows f zero w atoms sel row ->
  row = map (fun j => f (nth j atoms d0)) sel ++ repeat zero (w - length sel) /\ (length sel <= w)%nat.
Proof.
  intros (vals & F & L & ->). split; [|exact L]. f_equal. induction F as [|j v sel vals (a & E & ->) F IH]; [reflexivity|].
  cbn [map]. cbn [length] in L. rewrite (nth_error_nth _ _ _ E). rewrite IH by lia. reflexivity.
Qed.

Section Cell.
Variables A B C : vec.
Hypothesis Hdet : det A B C <> 0.
Notation at0 sup j := (nth j sup (0%Z, vzero)).

Lemma row_bonds_shows (sup : list (Z * vec)) w c rest row a1 a2 : shows_row vdist vzero 0 sup w c (c :: rest) row -> rectangular row /\
  row_bonds a1 a2 row = if (fst (at0 sup c) =? a1)%Z then
     map (fun j => vdist (snd (at0 sup j)) (snd (at0 sup c))) (filter (fun j => keep_bond a2 (fst (at0 sup j), vdist (snd (at0 sup j)) (snd (at0 sup c)))) rest) else [].
Proof.
  intros (cen & Ec & S1 & S2 & _). destruct (shows_map _ _ _ _ _ _ (0%Z, vzero) S1) as [E1 L]. destruct (shows_map _ _ _ _ _ _ (0%Z, vzero) S2) as [E2 _].
  rewrite <- (nth_error_nth _ _ (0%Z, vzero) Ec) in E2. unfold rectangular, row_bonds. rewrite E1, E2. split.
  - split; [discriminate|]. rewrite !app_length, !map_length, !repeat_length. reflexivity.
  - cbn [map app combine fst]. destruct (fst (at0 sup c) =? a1)%Z; [|reflexivity]. clear.
    generalize (w - length (c :: rest))%nat. intros k.
    assert (P0 : map snd (filter (keep_bond a2) (combine (repeat 0%Z k) (repeat 0 k))) = []).
    { assert (K0 : keep_bond a2 (0%Z, 0) = false) by (unfold keep_bond; cbn [fst snd]; destruct (Req_EM_T 0 0); [apply andb_false_r|lra]).
      induction k as [|k IH]; [reflexivity|]. cbn [repeat combine filter]. rewrite K0. exact IH. }
    induction rest as [|j rest IH]; [exact P0|]. cbn [map app combine filter]. destruct (keep_bond a2 _); cbn [map snd]; rewrite IH; reflexivity.
Qed.

Lemma sites_nodup (sites : list (Z * vec)) : distinct_sites A B C (map snd sites) -> NoDup sites.
Proof.
  intros H. apply NoDup_nth_error. intros i j Hi E.
  destruct (nth_error sites i) as [s|] eqn:Ei; [|apply nth_error_Some in Hi; congruence]. symmetry in E.
  apply (H i j (snd s) (snd s) 0%Z 0%Z 0%Z); [rewrite nth_error_map, Ei; reflexivity|rewrite nth_error_map, E; reflexivity|].
  symmetry. apply comb_zero.
Qed.

Lemma in_nth_iff {T} (l : list T) x : In x l <-> exists i, nth_error l i = Some x.
Proof. split; [apply In_nth_error|intros [i E]; eapply nth_error_In; exact E]. Qed.

Definition keys_of (sup : list (Z * vec)) (a1 a2 : Z) (cr : nat * list nat) : list ((Z * vec) * (Z * vec)) :=
  if (fst (at0 sup (fst cr)) =? a1)%Z then
    map (fun j => (at0 sup (fst cr), at0 sup j)) (filter (fun j => keep_bond a2 (fst (at0 sup j), vdist (snd (at0 sup j)) (snd (at0 sup (fst cr))))) (snd cr))
  else [].


(** The bonds, from the rows. *)
Lemma keys_ok argsort (sites : list (Z * vec)) rcut s0 s1 s2 a1 a2 : sorts Rleb argsort -> positive_odd s0 -> positive_odd s1 -> positive_odd s2 ->
  distinct_sites A B C (map snd sites) -> 0 <= rcut -> Forall (fun s => in_cell A B C (snd s)) sites ->
  reaches rcut s0 A B C -> reaches rcut s1 B C A -> reaches rcut s2 C A B -> sites <> [] ->
  exists table keys, structure_neighbors_v1 argsort A B C sites rcut s0 s1 s2 true = Ok table /\
  table <> [] /\ Forall rectangular table /\
  flat_map (row_bonds a1 a2) table = map bond_length keys /\ all_bonds A B C sites rcut a1 a2 keys.
Proof.
  intros Hs O0 O1 O2 Hd Hr Hc R0 R1 R2 Hne.
  destruct (structure_table A B C Hdet argsort sites rcut s0 s1 s2 Hs O0 O1 O2 Hd Hr) as (sup & idxs & table & rests & w & Esup & En & Em & Lt & Lr & F & _ & Sh).
  destruct (supercell_nodup A B C Hdet s0 s1 s2 true sites sup O0 O1 O2 Hd Esup) as (Nd & _ & _). unfold site in *.
  assert (Ps : Permutation (reformat_elements_ vec sites) sites) by (symmetry; apply sort_perm).
  assert (Li : length idxs = length sites).
  { assert (X : length (map (nth_error sup) idxs) = length (map Some (reformat_elements_ vec sites))) by (rewrite Em; reflexivity).
    rewrite !map_length in X. rewrite X. apply Permutation_length. exact Ps. }
  assert (Ni : forall i c, nth_error idxs i = Some c -> exists s, nth_error (reformat_elements_ vec sites) i = Some s /\ nth_error sup c = Some s).
  { intros i c E. assert (X : nth_error (map (nth_error sup) idxs) i = nth_error (map Some (reformat_elements_ vec sites)) i) by (rewrite Em; reflexivity).
    rewrite !nth_error_map, E in X. cbn in X. destruct (nth_error (reformat_elements_ vec sites) i) as [s|]; [|discriminate]. exists s. split; [reflexivity|]. cbn in X. congruence. }
  exists table, (flat_map (keys_of sup a1 a2) (combine idxs rests)). split; [exact En|]. split; [destruct table; [destruct sites; [contradiction|discriminate]|discriminate]|].
  assert (RB : forall i row, nth_error table i = Some row -> exists c rest, nth_error idxs i = Some c /\ nth_error rests i = Some rest /\ shows_row vdist vzero 0 sup w c (c :: rest) row).
  { intros i row E. assert (Hi : (i < length sites)%nat) by (rewrite <- Lt; apply nth_error_Some; congruence).
    destruct (nth_error idxs i) as [c|] eqn:Ei; [|apply nth_error_None in Ei; lia]. destruct (nth_error rests i) as [rest|] eqn:Er; [|apply nth_error_None in Er; lia].
    exists c, rest. split; [reflexivity|]. split; [reflexivity|]. exact (Sh i c rest row Ei Er E). }
  split.
  { rewrite Forall_forall. intros row I0. apply In_nth_error in I0. destruct I0 as [i E]. destruct (RB i row E) as (c & rest & _ & _ & S0). exact (proj1 (row_bonds_shows sup w c rest row a1 a2 S0)). }
  split.
  { assert (G : forall (l1 : list (list Z * list R * list vec)) l2 l3, length l1 = length l2 -> length l1 = length l3 ->
      (forall i row, nth_error l1 i = Some row -> exists c rest, nth_error l2 i = Some c /\ nth_error l3 i = Some rest /\ shows_row vdist vzero 0 sup w c (c :: rest) row) ->
      flat_map (row_bonds a1 a2) l1 = map bond_length (flat_map (keys_of sup a1 a2) (combine l2 l3))).
    { induction l1 as [|row l1 IH]; intros [|c l2] [|rest l3] L2 L3 H; cbn in L2, L3; try lia; [reflexivity|].
      cbn [flat_map combine]. rewrite map_app. f_equal.
      - destruct (H 0%nat row eq_refl) as (c' & rest' & E1 & E2 & S0). cbn in E1, E2. injection E1 as <-. injection E2 as <-.
        rewrite (proj2 (row_bonds_shows sup w c rest row a1 a2 S0)). unfold keys_of. cbn [fst snd]. destruct (_ =? a1)%Z; [|reflexivity].
        rewrite map_map. reflexivity.
      - apply IH; [lia|lia|]. intros i r E. exact (H (S i) r E). }
    apply G; [lia|lia|exact RB]. }
  (* the keys *)
  assert (KI : forall cn, In cn (flat_map (keys_of sup a1 a2) (combine idxs rests)) <-> exists i c rest j, nth_error idxs i = Some c /\ nth_error rests i = Some rest /\ In j rest /\
     cn = (nth c sup (0%Z, vzero), nth j sup (0%Z, vzero)) /\ fst (fst cn) = a1 /\ fst (snd cn) = a2 /\ bond_length cn <> 0).
  { intros cn. rewrite in_flat_map. split.
    - intros ([c rest] & I1 & I2). apply In_nth_error in I1. destruct I1 as [i Ei].
      assert (Ec : nth_error idxs i = Some c /\ nth_error rests i = Some rest).
      { clear -Ei. revert idxs rests Ei. induction i as [|i IH]; intros [|a l1] [|b l2] E; cbn in E; try discriminate; [injection E as -> ->; split; reflexivity|]. cbn. apply IH. exact E. }
      unfold keys_of in I2. cbn [fst snd] in I2. match type of I2 with In _ (if ?b then _ else _) => destruct b eqn:Z1 end; [|destruct I2]. apply Z.eqb_eq in Z1.
      apply in_map_iff in I2. destruct I2 as (j & <- & I2). apply filter_In in I2. destruct I2 as [I2 K]. unfold keep_bond in K. cbn [fst snd] in K.
      apply andb_true_iff in K. destruct K as [K1 K2]. exists i, c, rest, j. destruct Ec as [Ec Er]. split; [exact Ec|]. split; [exact Er|]. split; [exact I2|]. split; [reflexivity|].
      cbn [fst snd]. split; [exact Z1|]. split; [apply Z.eqb_eq; exact K1|]. unfold bond_length. cbn [fst snd]. destruct (Req_EM_T _ 0); [discriminate|assumption].
    - intros (i & c & rest & j & Ei & Er & I0 & -> & Z1 & Z2 & N). cbn [fst snd] in *. exists (c, rest). split.
      + apply nth_error_In with i. clear -Ei Er. revert idxs rests Ei Er. induction i as [|i IH]; intros [|a l1] [|b l2] E1 E2; cbn in *; try discriminate; [congruence|apply IH; assumption].
      + unfold keys_of. cbn [fst snd]. rewrite (proj2 (Z.eqb_eq _ _) Z1). apply in_map_iff. exists j. split; [reflexivity|]. apply filter_In. split; [exact I0|].
        unfold keep_bond. cbn [fst snd]. rewrite (proj2 (Z.eqb_eq _ _) Z2). unfold bond_length in N. cbn [fst snd] in N. destruct (Req_EM_T _ 0); [contradiction|reflexivity]. }
  assert (FN : forall i c rest, nth_error idxs i = Some c -> nth_error rests i = Some rest -> neighbours vdist Rleb sup rcut c (c :: rest)).
  { clear -F. induction F as [|c rest l1 l2 H F IH]; intros [|i] c' rest' E1 E2; cbn in E1, E2; try discriminate; [injection E1 as <-; injection E2 as <-; exact H|]. exact (IH i c' rest' E1 E2). }
  assert (Nsup : NoDup sup) by (apply NoDup_map_inv with (f := snd); exact Nd).
  split.
  - apply flat_map_nodup.
    + (* rows *)
      assert (Nidx : NoDup idxs).
      { apply NoDup_map_inv with (f := nth_error sup). rewrite Em. apply FinFun.Injective_map_NoDup; [intros x y E; congruence|].
        apply Permutation_NoDup with sites; [symmetry; exact Ps|apply sites_nodup; exact Hd]. }
      clear -Nidx Li Lr. assert (L : length idxs = length rests) by lia. clear Li Lr. revert rests L. induction idxs as [|c idxs IH]; intros [|r rests] L; cbn in L; try lia; [constructor|].
      inversion Nidx; subst. cbn [combine]. constructor; [|apply IH; [assumption|lia]]. intros I0. apply in_combine_l in I0. contradiction.
    + intros [c rest] I0. unfold keys_of. cbn [fst snd]. destruct (_ =? a1)%Z; [|constructor].
      apply In_nth_error in I0. destruct I0 as [i Ei].
      assert (Ec : nth_error idxs i = Some c /\ nth_error rests i = Some rest).
      { clear -Ei. revert idxs rests Ei. induction i as [|i IH]; intros [|a l1] [|b l2] E; cbn in E; try discriminate; [injection E as -> ->; split; reflexivity|]. cbn. apply IH. exact E. }
      destruct (FN i c rest (proj1 Ec) (proj2 Ec)) as (cen & Ecen & (Ndr & Mem) & _). inversion Ndr as [|? ? Nc Ndr']; subst.
      set (fl := filter _ rest). assert (Nf : NoDup fl) by (apply NoDup_filter; exact Ndr').
      assert (Lf : forall j, In j fl -> (j < length sup)%nat). { intros j Ij. apply filter_In in Ij. destruct (proj1 (Mem j) (or_intror (proj1 Ij))) as (a & Ea & _). apply nth_error_Some. congruence. }
      clearbody fl. clear -Nf Lf Nsup. induction Nf as [|j fl Nj Nf IH]; [constructor|]. cbn [map]. constructor.
      * intros I0. apply in_map_iff in I0. destruct I0 as (k & E & Ik). injection E as E. apply Nj.
        assert (j = k) as ->; [|exact Ik]. apply (proj1 (NoDup_nth sup (0%Z, vzero)) Nsup); [apply Lf; left; reflexivity|apply Lf; right; exact Ik|symmetry; exact E].
      * apply IH. intros k Ik. apply Lf. right. exact Ik.
    + intros [c rest] [c' rest'] u I1 I2 K1 K2.
      assert (X : forall cr, In u (keys_of sup a1 a2 cr) -> fst u = nth (fst cr) sup (0%Z, vzero)).
      { intros cr I0. unfold keys_of in I0. match type of I0 with In _ (if ?b then _ else _) => destruct b end; [|destruct I0]. apply in_map_iff in I0. destruct I0 as (j & <- & _). reflexivity. }
      apply X in K1. apply X in K2. cbn [fst] in K1, K2. apply In_nth_error in I1, I2. destruct I1 as [i Ei], I2 as [i' Ei'].
      assert (G : forall i c rest, nth_error (combine idxs rests) i = Some (c, rest) -> nth_error idxs i = Some c /\ nth_error rests i = Some rest).
      { clear. intros i c rest. revert idxs rests. induction i as [|i IH]; intros [|a l1] [|b l2] E; cbn in E; try discriminate; [injection E as -> ->; split; reflexivity|]. cbn. apply IH. exact E. }
      destruct (G _ _ _ Ei) as [Ec Er]. destruct (G _ _ _ Ei') as [Ec' Er']. destruct (Ni i c Ec) as (s & Es & Esc). destruct (Ni i' c' Ec') as (s' & Es' & Esc').
      rewrite (nth_error_nth _ _ (0%Z, vzero) Esc) in K1. rewrite (nth_error_nth _ _ (0%Z, vzero) Esc') in K2.
      assert (Nref : NoDup (reformat_elements_ vec sites)) by (apply Permutation_NoDup with sites; [symmetry; exact Ps|apply sites_nodup; exact Hd]).
      assert (i = i'). { apply (proj1 (NoDup_nth_error _) Nref); [apply nth_error_Some; congruence|]. rewrite Es, Es'. congruence. }
      subst i'. congruence.
  - intros cn. rewrite KI. unfold bond. split.
    + intros (i & c & rest & j & Ei & Er & I0 & E & Z1 & Z2 & N). destruct (Ni i c Ei) as (s & Es & Esc). pose proof (FN i c rest Ei Er) as Nb.
      destruct Nb as (cen & Ecen & (Ndr & Mem) & Srt) eqn:Enb. clear Enb. assert (s = cen) as -> by congruence.
      destruct (proj1 (Mem j) (or_intror I0)) as (a & Ea & Wa). rewrite E in *. cbn [fst snd] in *. unfold bond_length in N. cbn [fst snd] in N.
      rewrite (nth_error_nth _ _ (0%Z, vzero) Ecen), (nth_error_nth _ _ (0%Z, vzero) Ea) in *.
      destruct (proj1 (structure_complete A B C Hdet sites sup rcut s0 s1 s2 idxs O0 O1 O2 Hd Hr Hc R0 R1 R2 Esup Em i c (c :: rest) cen a Ei Es (FN i c rest Ei Er))) as [Im Le].
      { exists j. split; [right; exact I0|exact Ea]. }
      split; [apply Permutation_in with (reformat_elements_ vec sites); [exact Ps|eapply nth_error_In; exact Es]|]. split; [exact Z1|]. split; [exact Im|]. split; [exact Z2|].
      split; [|exact Le]. assert (NN : 0 <= vdist (snd a) (snd cen)) by (rewrite vdist_norm2; apply sqrt_pos). lra.
    + destruct cn as [c0 n0]. cbn [fst snd]. intros (Ic & Z1 & Im & Z2 & Dp & Dl).
      assert (Ir : In c0 (reformat_elements_ vec sites)) by (apply Permutation_in with sites; [symmetry; exact Ps|exact Ic]).
      apply In_nth_error in Ir. destruct Ir as [i Es]. assert (Hi : (i < length idxs)%nat). { assert (X := Permutation_length Ps). assert ((i < length (reformat_elements_ vec sites))%nat) by (apply nth_error_Some; intros X0; pose proof (eq_trans (eq_sym Es) X0); discriminate). unfold site in *. lia. }
      destruct (nth_error idxs i) as [c|] eqn:Ei; [|apply nth_error_None in Ei; lia]. destruct (nth_error rests i) as [rest|] eqn:Er; [|apply nth_error_None in Er; lia].
      destruct (Ni i c Ei) as (s & Es' & Esc). assert (Q0 : s = c0) by (unfold site in *; congruence). subst s.
      destruct (proj2 (structure_complete A B C Hdet sites sup rcut s0 s1 s2 idxs O0 O1 O2 Hd Hr Hc R0 R1 R2 Esup Em i c (c :: rest) c0 n0 Ei Es (FN i c rest Ei Er)) (conj Im Dl)) as (j & Ij & Ej).
      exists i, c, rest, j. split; [exact Ei|]. split; [exact Er|]. destruct Ij as [<-|Ij].
      * exfalso. assert (c0 = n0) by congruence. subst n0. rewrite vdist_self in Dp. lra.
      * split; [exact Ij|]. rewrite (nth_error_nth _ _ (0%Z, vzero) Esc), (nth_error_nth _ _ (0%Z, vzero) Ej). split; [reflexivity|]. unfold bond_length. cbn [fst snd]. repeat split; try assumption. lra.
Qed.

Lemma average_perm l l' : Permutation l l' -> average l = average l'.
Proof.
  intros P. assert (S0 : fold_right Rplus 0 l = fold_right Rplus 0 l') by (induction P; cbn; lra).
  assert (L := Permutation_length P). destruct l, l'; try reflexivity; try discriminate L. unfold average. rewrite S0, L. reflexivity.
Qed.
Lemma bonds_perm sites rcut a1 a2 k k' : all_bonds A B C sites rcut a1 a2 k -> all_bonds A B C sites rcut a1 a2 k' -> Permutation k k'.
Proof. intros [N H] [N' H']. apply NoDup_Permutation; [exact N|exact N'|]. intros x. rewrite H, H'. reflexivity. Qed.

(** Seen from the other end. *)
Definition flip (sites : list (Z * vec)) (k k' : (Z * vec) * (Z * vec)) : Prop :=
  In (fst k) sites /\ In (fst k') sites /\ exists p q r : Z,
  snd k = (fst (fst k'), vadd (snd (fst k')) (comb A B C (IZR p) (IZR q) (IZR r))) /\
  snd k' = (fst (fst k), vadd (snd (fst k)) (comb A B C (IZR (- p)) (IZR (- q)) (IZR (- r)))).
Lemma flip_sym sites k k' : flip sites k k' -> flip sites k' k.
Proof.
  intros (I1 & I2 & p & q & r & E1 & E2). split; [exact I2|]. split; [exact I1|]. exists (- p)%Z, (- q)%Z, (- r)%Z. rewrite !Z.opp_involutive. split; assumption.
Qed.
Lemma flip_fun sites k k1 k2 : distinct_sites A B C (map snd sites) -> flip sites k k1 -> flip sites k k2 -> k1 = k2.
Proof.
  intros Hd (_ & I1 & p & q & r & E1 & E2) (_ & I2 & p' & q' & r' & F1 & F2).
  apply In_nth_error in I1, I2. destruct I1 as [i Ei], I2 as [j Ej].
  assert (X : vadd (snd (fst k2)) (comb A B C (IZR p') (IZR q') (IZR r')) = vadd (snd (fst k1)) (comb A B C (IZR p) (IZR q) (IZR r))) by congruence.
  pose proof (image_diff A B C (snd (fst k1)) (snd (fst k2)) _ _ _ _ _ _ X) as D. rewrite <- !minus_IZR in D.
  assert (i = j). { apply (Hd i j (snd (fst k1)) (snd (fst k2)) (p - p')%Z (q - q')%Z (r - r')%Z); [rewrite nth_error_map, Ei; reflexivity|rewrite nth_error_map, Ej; reflexivity|exact D]. }
  subst j. assert (FE : fst k1 = fst k2) by congruence. rewrite FE in X. apply vadd_cancel in X.
  destruct (comb_inj A B C Hdet _ _ _ _ _ _ X) as (Ep & Eq & Er). apply eq_IZR in Ep, Eq, Er. subst p' q' r'.
  destruct k1 as [c1 n1], k2 as [c2 n2]. cbn [fst snd] in *. congruence.
Qed.
Lemma flip_bond sites rcut a1 a2 k : bond A B C sites rcut a1 a2 k -> exists k', flip sites k k' /\ bond A B C sites rcut a2 a1 k' /\ bond_length k' = bond_length k.
Proof.
  destruct k as [c n]. unfold bond. cbn [fst snd]. intros (Ic & Z1 & (m & s & p & q & r & Em & ->) & Z2 & D1 & D2). cbn [fst snd] in *.
  exists (s, (fst c, vadd (snd c) (comb A B C (IZR (- p)) (IZR (- q)) (IZR (- r))))). cbn [fst snd].
  assert (Is : In s sites) by (eapply nth_error_In; exact Em).
  assert (DE : vdist (vadd (snd c) (comb A B C (IZR (- p)) (IZR (- q)) (IZR (- r)))) (snd s) = vdist (vadd (snd s) (comb A B C (IZR p) (IZR q) (IZR r))) (snd c)).
  { rewrite !vdist_norm2. f_equal. rewrite !opp_IZR. destruct (snd s) as [[sx sy] sz], (snd c) as [[cx cy] cz]. clear. destruct A as [[? ?] ?], B as [[? ?] ?], C as [[? ?] ?]. vec_unfold. ring. }
  split; [|split].
  - split; [exact Ic|]. split; [exact Is|]. exists p, q, r. split; reflexivity.
  - split; [exact Is|]. split; [exact Z2|]. split; [|split; [exact Z1|rewrite DE; split; assumption]].
    apply In_nth_error in Ic. destruct Ic as [i Ei]. exists i, c, (- p)%Z, (- q)%Z, (- r)%Z. split; [exact Ei|reflexivity].
  - unfold bond_length. cbn [fst snd]. exact DE.
Qed.
Lemma flip_all sites rcut a1 a2 keys : distinct_sites A B C (map snd sites) -> all_bonds A B C sites rcut a1 a2 keys ->
  exists keys', all_bonds A B C sites rcut a2 a1 keys' /\ map bond_length keys' = map bond_length keys.
Proof.
  intros Hd [N H].
  assert (G : forall l, (forall k, In k l -> bond A B C sites rcut a1 a2 k) -> exists l', Forall2 (fun k k' => flip sites k k' /\ bond A B C sites rcut a2 a1 k' /\ bond_length k' = bond_length k) l l').
  { induction l as [|k l IH]; intros Hl; [exists []; constructor|]. destruct IH as [l' F]; [intros x I0; apply Hl; right; exact I0|].
    destruct (flip_bond sites rcut a1 a2 k (Hl k (or_introl eq_refl))) as (k' & K). exists (k' :: l'). constructor; assumption. }
  destruct (G keys (fun k I0 => proj1 (H k) I0)) as (keys' & F). exists keys'. split; [split|].
  - clear H G. induction F as [|k k' l l' (Fl & _ & _) F IH]; [constructor|]. inversion N; subst. constructor; [|apply IH; assumption].
    intros I0. assert (exists k2, In k2 l /\ flip sites k2 k') as (k2 & I2 & F2).
    { clear -F I0. induction F as [|a b l l' (Fl & _) F IH]; [destruct I0|]. destruct I0 as [<-|I0]; [exists a; split; [left; reflexivity|exact Fl]|]. destruct (IH I0) as (k2 & ? & ?). exists k2. split; [right; assumption|assumption]. }
    assert (k = k2) by (eapply flip_fun; [exact Hd|apply flip_sym; exact Fl|apply flip_sym; exact F2]). subst. contradiction.
  - intros k'. split.
    + intros I0. clear -F I0. induction F as [|a b l l' (_ & Hb & _) F IH]; [destruct I0|]. destruct I0 as [<-|I0]; [exact Hb|apply IH; exact I0].
    + intros Hb. destruct (flip_bond sites rcut a2 a1 k' Hb) as (k & Fk & Bk & _). apply H in Bk.
      assert (exists k2, In k2 keys' /\ flip sites k k2) as (k2 & I2 & F2).
      { clear -F Bk. induction F as [|a b l l' (Fl & _) F IH]; [destruct Bk|]. destruct Bk as [<-|I0]; [exists b; split; [left; reflexivity|exact Fl]|]. destruct (IH I0) as (k2 & ? & ?). exists k2. split; [right; assumption|assumption]. }
      assert (k' = k2) by (eapply flip_fun; [exact Hd|apply flip_sym; exact Fk|exact F2]). subst. exact I2.
  - clear -F. induction F as [|a b l l' (_ & _ & E) F IH]; [reflexivity|]. cbn [map]. rewrite E, IH. reflexivity.
Qed.

Lemma structure_avg argsort (sites : list (Z * vec)) rcut s0 s1 s2 : sorts Rleb argsort -> positive_odd s0 -> positive_odd s1 -> positive_odd s2 ->
  distinct_sites A B C (map snd sites) -> 0 <= rcut -> Forall (fun s => in_cell A B C (snd s)) sites ->
  reaches rcut s0 A B C -> reaches rcut s1 B C A -> reaches rcut s2 C A B -> sites <> [] ->
  exists table, structure_neighbors_v1 argsort A B C sites rcut s0 s1 s2 true = Ok table /\
  forall a1 a2, (exists keys, all_bonds A B C sites rcut a1 a2 keys) /\
  (forall keys, all_bonds A B C sites rcut a1 a2 keys -> get_avg_bond_length table a1 a2 = Ok (average (map bond_length keys))) /\
  get_avg_bond_length table a1 a2 = get_avg_bond_length table a2 a1.
Proof.
  intros Hs O0 O1 O2 Hd Hr Hc R0 R1 R2 Hne.
  destruct (structure_table A B C Hdet argsort sites rcut s0 s1 s2 Hs O0 O1 O2 Hd Hr) as (_ & _ & table & _ & _ & _ & En & _).
  exists table. split; [exact En|].
  assert (K : forall a1 a2, exists keys, all_bonds A B C sites rcut a1 a2 keys /\ get_avg_bond_length table a1 a2 = Ok (average (map bond_length keys))).
  { intros a1 a2. destruct (keys_ok argsort sites rcut s0 s1 s2 a1 a2 Hs O0 O1 O2 Hd Hr Hc R0 R1 R2 Hne) as (t & keys & Et & Tn & Tr & Tb & Kb).
    assert (t = table) by congruence. subst t. exists keys. split; [exact Kb|]. rewrite avg_bond_table by assumption. rewrite Tb. reflexivity. }
  assert (U : forall a1 a2 keys, all_bonds A B C sites rcut a1 a2 keys -> get_avg_bond_length table a1 a2 = Ok (average (map bond_length keys))).
  { intros a1 a2 keys H. destruct (K a1 a2) as (k0 & H0 & ->). f_equal. apply average_perm, Permutation_map. eapply bonds_perm; eassumption. }
  intros a1 a2. destruct (K a1 a2) as (k0 & H0 & E0). split; [exists k0; exact H0|]. split; [apply U|].
  destruct (flip_all sites rcut a1 a2 k0 Hd H0) as (k1 & H1 & M1). rewrite E0, (U a2 a1 k1 H1), M1. reflexivity.
Qed.
End Cell.

(** An average lies between the bounds of the list. *)
Lemma average_bounds l lo hi m : Forall (fun x => lo <= x <= hi) l -> average l = Some m -> lo <= m <= hi.
Proof.
  intros F E. destruct l as [|x l]; [discriminate|]. unfold average in E. change (Some (fold_right Rplus 0 (x :: l) / INR (length (x :: l))) = Some m) in E. remember (x :: l) as L eqn:EL. injection E as <-.
  assert (N : 0 < INR (length L)) by (subst L; apply lt_0_INR; cbn; lia). clear EL.
  assert (S0 : INR (length L) * lo <= fold_right Rplus 0 L <= INR (length L) * hi).
  { clear N. induction F as [|y ys H F IH]; [cbn; lra|]. cbn [fold_right]. change (length (y :: ys)) with (S (length ys)). rewrite S_INR. lra. }
  remember (INR (length L)) as n eqn:En. remember (fold_right Rplus 0 L) as t eqn:Et. clear En Et F.
  assert (Ht : t = t / n * n) by (field; lra). split; apply Rmult_le_reg_r with n; lra.
Qed.
Lemma bond_avg_bounds A B C sites rcut a1 a2 keys m : all_bonds A B C sites rcut a1 a2 keys -> average (map bond_length keys) = Some m -> 0 < m <= rcut.
Proof.
  intros [_ H] E. assert (F : Forall (fun cn => 0 < bond_length cn <= rcut) keys).
  { apply Forall_forall. intros cn I0. apply H in I0. exact (proj2 (proj2 (proj2 (proj2 I0)))). }
  assert (F1 : Forall (fun x => 0 <= x <= rcut) (map bond_length keys)). { apply Forall_map. eapply Forall_impl; [|exact F]. cbn. intros; lra. }
  split; [|exact (proj2 (average_bounds _ 0 rcut m F1 E))].
  destruct keys as [|k keys]; [discriminate|]. unfold average in E. cbn [map] in E. injection E as <-. inversion F as [|? ? Hk Hks]; subst.
  assert (S0 : 0 <= fold_right Rplus 0 (map bond_length keys)). { clear -Hks. induction Hks as [|y ys H F IH]; [cbn; lra|]. cbn. lra. }
  unfold Rdiv. apply Rmult_lt_0_compat; [cbn [fold_right]; lra|]. apply Rinv_0_lt_compat. change (0 < INR (S (length (map bond_length keys)))). apply lt_0_INR. lia.
Qed.
