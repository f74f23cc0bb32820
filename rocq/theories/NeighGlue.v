(** Neighbour tables of structures and the pair features together. *)
From Verif Require Import Arr Vec StructModel SiteIndexModel SeModel NeighModel NeighSpec StructProofs NeighProofs NeighCounts NeighPair.
From Verif Require Import StructSpec SiteIndexSpec SiteIndexProofs StructGlue NbGeomProofs.
From Coq Require Import ZifyBool.
Open Scope nat_scope.

Lemma forall2_nth {A B} (Q : A -> B -> Prop) l1 l2 : Forall2 Q l1 l2 -> forall i a b, nth_error l1 i = Some a -> nth_error l2 i = Some b -> Q a b.
Proof. induction 1 as [|x y l1 l2 H F IH]; intros [|i] a b Ha Hb; cbn in *; try discriminate; [congruence|exact (IH i a b Ha Hb)]. Qed.

Section Glue.
Context {P D : Type}.
Variables (dist : P -> P -> D) (leb : D -> D -> bool) (argsort : list D -> list nat) (zeroP : P) (zeroD : D).
Hypothesis Hleb : total_preorder leb.
Hypothesis Hsort : sorts leb argsort.
Variable sub : P -> P -> P.
Implicit Types sup : list (Z * P).
Notation at_ sup j := (nth j sup (0%Z, zeroP)).

Lemma isolated_bound sup rcut c : isolated dist leb sup rcut c -> c < length sup.
Proof. intros (cen & E & _). apply nth_error_Some. congruence. Qed.

Lemma table_rests sup key rcut : Forall (isolated dist leb sup rcut) key ->
  exists table rests w, key_neighs_info dist leb argsort zeroP zeroD sup key rcut = Ok table /\
    Forall2 (fun c rest => neighbours dist leb sup rcut c (c :: rest)) key rests /\ widest (map (fun cr => fst cr :: snd cr) (combine key rests)) w /\
    length rests = length key /\ table = map (fun pr => canon dist zeroP zeroD sup w (fst pr) (fst pr :: snd pr)) (combine key rests) /\
    forall i c rest row, nth_error key i = Some c -> nth_error rests i = Some rest -> nth_error table i = Some row -> shows_row dist zeroP zeroD sup w c (c :: rest) row.
Proof.
  intros H. assert (Hb : Forall (fun c => c < length sup) key) by (revert H; apply Forall_impl; intros c; apply isolated_bound).
  destruct (table_ok dist leb argsort zeroP zeroD Hleb Hsort sup key rcut Hb) as (table & sels & w & E & F & Wd & L1 & L2 & Sh).
  assert (R : exists rests, length rests = length key /\ sels = map (fun cr => fst cr :: snd cr) (combine key rests)).
  { clear - F H. revert H. induction F as [|c sel key sels Hn F IH]; intros H; [exists []; split; reflexivity|]. inversion H as [|? ? (cen & Ec & I1 & I2) Hr]; subst. destruct (IH Hr) as (rests & Lr & ->).
    destruct (centre_first dist leb sup rcut c cen sel Ec I1 I2 Hn) as (rest & ->). exists (rest :: rests). split; [cbn; lia|reflexivity]. }
  destruct R as (rests & Lr & Es). exists table, rests, w. split; [exact E|].
  assert (Nth : forall i c rest, nth_error key i = Some c -> nth_error rests i = Some rest -> nth_error sels i = Some (c :: rest)).
  { intros i c rest K1 K2. rewrite Es, nth_error_map. assert (X : nth_error (combine key rests) i = Some (c, rest)).
    { clear - K1 K2. revert rests i K1 K2. induction key as [|k key IH]; intros [|r rests] [|i] K1 K2; cbn in *; try discriminate; [congruence|apply IH; assumption]. }
    rewrite X. reflexivity. }
  assert (F2 : Forall2 (fun c rest => neighbours dist leb sup rcut c (c :: rest)) key rests).
  { clear - F Es Lr. revert rests Lr sels Es F. induction key as [|c key IH]; intros [|r rests] Lr sels Es F; try discriminate; [constructor|]. cbn in Es. subst sels. inversion F; subst. constructor; [assumption|]. eapply IH; [cbn in Lr; lia|reflexivity|assumption]. }
  assert (S2 : forall i c rest row, nth_error key i = Some c -> nth_error rests i = Some rest -> nth_error table i = Some row -> shows_row dist zeroP zeroD sup w c (c :: rest) row).
  { intros i c rest row K1 K2 K3. apply (Sh i c (c :: rest) row K1 (Nth i c rest K1 K2) K3). }
  split; [exact F2|]. split; [rewrite <- Es; exact Wd|]. split; [exact Lr|]. split; [|exact S2].
  apply nth_error_ext; [rewrite map_length, combine_length; lia|]. intros i Hi. rewrite nth_error_map.
  destruct (nth_error table i) as [row|] eqn:Ki; [|apply nth_error_None in Ki; lia].
  destruct (nth_error key i) as [c|] eqn:K; [|apply nth_error_None in K; lia]. destruct (nth_error rests i) as [rest|] eqn:K2; [|apply nth_error_None in K2; lia].
  assert (X : nth_error (combine key rests) i = Some (c, rest)).
  { clear - K K2. revert rests i K K2. induction key as [|k key IH]; intros [|r rests] [|i] K1 K2; cbn in *; try discriminate; [congruence|apply IH; assumption]. }
  rewrite X. cbn [option_map fst snd]. destruct (S2 i c rest row K K2 Ki) as (cen & Ec & A1 & A2 & A3). f_equal. unfold canon. destruct row as [[an d] cc]. cbn [fst snd] in *.
  rewrite (nth_error_nth _ _ _ Ec). apply (shows_eq zeroP) in A1, A2, A3. destruct A1 as [-> _], A2 as [-> _], A3 as [-> _]. reflexivity.
Qed.

(** Neighbours of one element among those of a row. *)
Lemma flt_pair sup rcut nbr c rest : neighbours dist leb sup rcut c (c :: rest) -> pair_neighbours dist leb sup rcut nbr c (flt zeroP sup nbr rest).
Proof.
  intros (cen & Ec & [Nd L] & Nf). inversion Nd as [|? ? Nc Nr]; subst. unfold flt. split; [split|].
  - apply NoDup_filter, Nr.
  - intros j. rewrite filter_In, Z.eqb_eq. split.
    + intros [Ij Ej]. assert (I2 : In j (c :: rest)) by (right; exact Ij). apply L in I2. destruct I2 as (a & Ha & G). exists a. split; [exact Ha|].
      split; [exists cen; split; assumption|]. rewrite (nth_error_nth _ _ _ Ha) in Ej. split; [exact Ej|]. intros ->. contradiction.
    + intros (a & Ha & (cen' & Ec' & G) & Ez & Nj). assert (cen' = cen) by congruence. subst cen'. assert (I2 : In j (c :: rest)) by (apply L; exists a; split; assumption).
      destruct I2 as [->|I2]; [contradiction|]. split; [exact I2|]. rewrite (nth_error_nth _ _ _ Ha). exact Ez.
  - exists cen. split; [exact Ec|]. apply sorted_filter. inversion Nf; assumption.
Qed.
Lemma chosen_centres sup center key rests : length rests = length key -> Forall (fun c => c < length sup) key ->
  map fst (chosen zeroP sup key rests center) = centres_of sup center key.
Proof.
  unfold chosen, pairs_of, centres_of. revert rests. induction key as [|c key IH]; intros [|r rests] L F; try discriminate; [reflexivity|]. inversion F; subst. cbn [combine filter fst].
  unfold is_centre at 1. rewrite (nth_error_nth' sup (0%Z, zeroP)) by assumption. destruct (fst (at_ sup c) =? center)%Z; cbn [map]; rewrite IH by (assumption || (cbn in L; lia)); reflexivity.
Qed.
Lemma chosen_in sup center key rests pr : In pr (chosen zeroP sup key rests center) -> In pr (combine key rests).
Proof. intros H. apply filter_In in H. apply H. Qed.

Section Table.
Variables (sup : list (Z * P)) (key : list nat) (rcut : D) (center nbr : Z).
Hypothesis Hiso : Forall (isolated dist leb sup rcut) key.
Hypothesis Hkey : key <> [].
Hypothesis Hnbr : nbr <> 0%Z.

Lemma pair_all : exists table sels real,
  key_neighs_info dist leb argsort zeroP zeroD sup key rcut = Ok table /\
  Forall2 (pair_neighbours dist leb sup rcut nbr) (centres_of sup center key) sels /\ widest sels real /\
  (exists ans ds rcs, extract_feature_pair zeroP zeroD sub table center nbr = Ok (real, (ans, ds, rcs)) /\
     length ans = length sels /\ length ds = length sels /\ length rcs = length sels /\
     forall i c sel, nth_error (centres_of sup center key) i = Some c -> nth_error sels i = Some sel ->
     exists cen a d rc, nth_error sup c = Some cen /\ nth_error ans i = Some a /\ nth_error ds i = Some d /\ nth_error rcs i = Some rc /\
       shows fst 0%Z real sup sel a /\ shows (fun a => dist (snd a) (snd cen)) zeroD real sup sel d /\ shows (fun a => sub (snd a) (snd cen)) zeroP real sup sel rc) /\
  forall site_index m, 
    (real <= m -> 0 < m -> exists rows, _get_nbrs_indices zeroP site_index table center nbr (Some m) = Ok rows /\
      Forall2 (fun sel row => exists vals, Forall2 (fun j v => exists a, nth_error sup j = Some a /\ v = site_index (snd a)) sel vals /\
        row = vals ++ repeat (site_index zeroP) (real - length sel) ++ repeat 0 (m - real)) sels rows) /\
    (m < real -> 0 < m -> _get_nbrs_indices zeroP site_index table center nbr (Some m) = Err ValueError).
Proof.
  destruct (table_rests sup key rcut Hiso) as (table & rests & w & E & F & Wd & Lr & Et & Sh).
  assert (Hb : Forall (fun c => c < length sup) key) by (revert Hiso; apply Forall_impl; intros c; apply isolated_bound).
  assert (Hw : forall r, In r rests -> S (length r) <= w).
  { intros r Hr. apply In_nth_error in Hr. destruct Hr as (i & Hi). assert (i < length rests) by (apply nth_error_Some; congruence). destruct (nth_error key i) as [c|] eqn:K; [|apply nth_error_None in K; lia].
    apply (proj1 Wd (c :: r)). apply in_map_iff. exists (c, r). split; [reflexivity|]. apply (nth_error_In _ i). clear - K Hi. revert rests i K Hi. induction key as [|k ks IH]; intros [|r' rs] [|i] K1 K2; cbn in *; try discriminate; [congruence|apply IH; assumption]. }
  set (ch := chosen zeroP sup key rests center). set (sels := map (fun pr => flt zeroP sup nbr (snd pr)) ch).
  set (real := real_of zeroP sup center nbr (combine key rests)).
  assert (Fp : Forall2 (pair_neighbours dist leb sup rcut nbr) (centres_of sup center key) sels).
  { unfold sels. rewrite <- (chosen_centres sup center key rests Lr Hb). fold ch. assert (All : forall pr, In pr ch -> neighbours dist leb sup rcut (fst pr) (fst pr :: snd pr)).
    { intros pr Ip. apply chosen_in in Ip. clear - F Ip. induction F as [|c r ks rs Hn F IH]; [destruct Ip|]. destruct Ip as [<-|Ip]; [exact Hn|exact (IH Ip)]. }
    clearbody ch. induction ch as [|pr ch IH]; [constructor|]. cbn [map]. constructor; [apply flt_pair, All; left; reflexivity|apply IH; intros p Ip; apply All; right; exact Ip]. }
  assert (Wr : widest sels real).
  { unfold real, real_of. destruct (list_max0_spec (map (fun pr => if is_centre zeroP sup center (fst pr) then length (flt zeroP sup nbr (snd pr)) else 0) (combine key rests))) as [M1 M2]. split.
    - intros s Hs. unfold sels in Hs. apply in_map_iff in Hs. destruct Hs as (pr & <- & Ip). unfold ch, chosen in Ip. apply filter_In in Ip. destruct Ip as [Ip Ic].
      apply M1. apply in_map_iff. exists pr. rewrite Ic. split; [reflexivity|exact Ip].
    - destruct M2 as [M2|M2]; [left; exact M2|]. apply in_map_iff in M2. destruct M2 as (pr & Ep & Ip). destruct (is_centre zeroP sup center (fst pr)) eqn:Ic; [right|left; symmetry; exact Ep].
      exists (flt zeroP sup nbr (snd pr)). split; [|exact Ep]. apply in_map_iff. exists pr. split; [reflexivity|]. apply filter_In. split; assumption. }
  assert (Bs : forall pr, In pr ch -> Forall (fun j => j < length sup) (flt zeroP sup nbr (snd pr)) /\ length (flt zeroP sup nbr (snd pr)) <= real).
  { intros pr Ip. split; [|apply (proj1 Wr); apply in_map_iff; exists pr; split; [reflexivity|exact Ip]].
    assert (Is : In (flt zeroP sup nbr (snd pr)) sels) by (apply in_map_iff; exists pr; split; [reflexivity|exact Ip]). apply In_nth_error in Is. destruct Is as (i & Hi).
    destruct (nth_error (centres_of sup center key) i) as [c|] eqn:K.
    - exact (lists_bound _ _ _ (proj1 (forall2_nth _ _ _ Fp i c _ K Hi))).
    - apply nth_error_None in K. assert (i < length sels) by (apply nth_error_Some; congruence). assert (X := forall2_len _ _ _ Fp). lia. }
  exists table, sels, real. split; [exact E|]. split; [exact Fp|]. split; [exact Wr|]. split.
  - rewrite Et. change (combine key rests) with (pairs_of key rests). rewrite (extract_ok dist zeroP zeroD sub sup w key rests Lr Hkey Hw center nbr Hnbr). fold real. unfold pairs_of. fold real. eexists _, _, _. split; [reflexivity|].
    unfold sels. rewrite !map_length. fold ch. split; [reflexivity|]. split; [reflexivity|]. split; [reflexivity|].
    intros i c sel K1 K2. rewrite <- (chosen_centres sup center key rests Lr Hb) in K1. fold ch in K1. rewrite nth_error_map in K1, K2. destruct (nth_error ch i) as [pr|] eqn:K3; [|discriminate]. cbn in K1, K2. injection K1 as <-. injection K2 as <-.
    assert (Ip := nth_error_In _ _ K3). destruct (Bs pr Ip) as [B1 B2]. assert (Hc : fst pr < length sup). { apply chosen_in in Ip. destruct pr as [c r]. apply in_combine_l in Ip. rewrite Forall_forall in Hb. exact (Hb c Ip). }
    exists (at_ sup (fst pr)). eexists _, _, _. split; [apply nth_error_nth'; exact Hc|]. rewrite !nth_error_map, K3. cbn [option_map]. split; [reflexivity|]. split; [reflexivity|]. split; [reflexivity|].
    split; [apply shows_map; assumption|]. split; [apply (shows_map zeroP (fun a => dist (snd a) (snd (at_ sup (fst pr))))); assumption|apply (shows_map zeroP (fun a => sub (snd a) (snd (at_ sup (fst pr))))); assumption].
  - intros si m. rewrite Et. change (combine key rests) with (pairs_of key rests). rewrite (indices_ok dist zeroP zeroD sup w key rests Lr Hkey Hw center nbr Hnbr si (Some m)). cbv zeta. unfold pairs_of. fold real ch.
    assert (Rows : forall pr, In pr ch -> length (map (fun j => si (snd (at_ sup j))) (flt zeroP sup nbr (snd pr)) ++ repeat (si zeroP) (real - length (flt zeroP sup nbr (snd pr)))) = real).
    { intros pr Ip. destruct (Bs pr Ip) as [_ B2]. rewrite app_length, map_length, repeat_length. lia. }
    split.
    + intros Hm Hp. destruct m as [|m]; [lia|]. rewrite (mapM_map_ok _ _ (fun pr => (map (fun j => si (snd (at_ sup j))) (flt zeroP sup nbr (snd pr)) ++ repeat (si zeroP) (real - length (flt zeroP sup nbr (snd pr)))) ++ repeat 0 (S m - real))).
      * eexists. split; [reflexivity|]. unfold sels. clear - Bs. assert (Bs' : forall pr, In pr ch -> Forall (fun j => j < length sup) (flt zeroP sup nbr (snd pr))) by (intros pr Ip; apply (Bs pr Ip)). clear Bs. clearbody ch.
        induction ch as [|pr ch IH]; [constructor|]. cbn [map]. constructor; [|apply IH; intros p Ip; apply Bs'; right; exact Ip].
        exists (map (fun j => si (snd (at_ sup j))) (flt zeroP sup nbr (snd pr))). split; [|rewrite <- app_assoc; reflexivity].
        specialize (Bs' pr (or_introl eq_refl)). induction Bs' as [|j l Hj Hl IHl]; cbn [map]; constructor; [|exact IHl]. exists (at_ sup j). split; [apply nth_error_nth'; exact Hj|reflexivity].
      * intros pr Ip. unfold write_prefix. rewrite (Rows pr Ip), Nat.min_l, Nat.eqb_refl by exact Hm. reflexivity.
    + intros Hm Hp. destruct m as [|m]; [lia|]. destruct (proj2 Wr) as [Z0|(s & Is & Ls)]; [lia|]. unfold sels in Is. apply in_map_iff in Is. destruct Is as (pr & _ & Ip). destruct ch as [|p0 ch']; [destruct Ip|].
      cbn [map mapM]. unfold write_prefix at 1. rewrite (Rows p0 (or_introl eq_refl)), Nat.min_r by lia. replace (real =? S m) with false by (symmetry; apply Nat.eqb_neq; lia). reflexivity.
Qed.

Lemma expand_all m : exists table sels real, 
  key_neighs_info dist leb argsort zeroP zeroD sup key rcut = Ok table /\
  Forall2 (pair_neighbours dist leb sup rcut nbr) (centres_of sup center key) sels /\ widest sels real /\
  (real <= m -> exists rows, expand_rc zeroP zeroD sub table center nbr m = Ok rows /\ length rows = length sels /\
     forall i c sel, nth_error (centres_of sup center key) i = Some c -> nth_error sels i = Some sel ->
     exists cen row, nth_error sup c = Some cen /\ nth_error rows i = Some row /\ shows (fun a => sub (snd a) (snd cen)) zeroP m sup sel row) /\
  (m < real -> expand_rc zeroP zeroD sub table center nbr m = Err AssertionError).
Proof.
  destruct pair_all as (table & sels & real & E & F & W & (ans & ds & rcs & Ex & L1 & L2 & L3 & Sh) & _). exists table, sels, real. split; [exact E|]. split; [exact F|]. split; [exact W|].
  unfold expand_rc. rewrite Ex. cbn [bind]. split.
  - intros Hm. replace (real <=? m) with true by lia. eexists. split; [reflexivity|]. split; [rewrite map_length; exact L3|].
    intros i c sel K1 K2. destruct (Sh i c sel K1 K2) as (cen & a & d & rc & Ec & _ & _ & Er & _ & _ & S3). exists cen. eexists. split; [exact Ec|]. rewrite nth_error_map, Er. cbn [option_map]. split; [reflexivity|].
    destruct S3 as (vals & Fv & Le & ->). exists vals. split; [exact Fv|]. split; [lia|]. rewrite <- app_assoc. f_equal. rewrite <- repeat_app. f_equal. lia.
  - intros Hm. replace (real <=? m) with false by lia. reflexivity.
Qed.

(** The advertised number for the element is wide enough when nothing sits on the cutoff. *)
Lemma advertised_width (an : string -> result Z) e elements d m : an e = Ok nbr -> In e elements -> (forall x, In x elements -> exists z, an x = Ok z) ->
  max_num_nbrs_real_element dist leb an sup key rcut elements = Ok d -> lookup d e = Ok m ->
  (forall c cen j a, In c key -> nth_error sup c = Some cen -> nth_error sup j = Some a -> ~ on_cutoff dist leb (snd cen) rcut a) ->
  exists table rows, key_neighs_info dist leb argsort zeroP zeroD sup key rcut = Ok table /\ expand_rc zeroP zeroD sub table center nbr m = Ok rows.
Proof.
  intros Ee Ie Hall Ed Em Hoff. destruct (expand_all m) as (table & sels & real & E & F & W & Ok1 & _).
  assert (Hb : Forall (fun c => c < length sup) key) by (revert Hiso; apply Forall_impl; intros c; apply isolated_bound).
  destruct (max_element_ok dist leb zeroP an sup key rcut elements Hb Hall) as (d' & Ed' & Hd). assert (d' = d) by congruence. subst d'.
  destruct (Hd e nbr Ie Ee) as (m' & Em' & Lm). assert (m' = m) by congruence. subst m'.
  assert (Hr : real <= m).
  { destruct (proj2 W) as [->|(s & Is & <-)]; [lia|]. apply In_nth_error in Is. destruct Is as (i & Hi). destruct (nth_error (centres_of sup center key) i) as [c|] eqn:K.
    - destruct (forall2_nth _ _ _ F i c s K Hi) as [Ls _]. assert (Ic : In c key) by (apply nth_error_In in K; apply filter_In in K; apply K).
      destruct (proj1 Lm c Ic) as (n & Nn & Hn). assert (Ns : number (of_element nbr (near dist leb sup rcut) c) sup (length s)) by (exists s; split; [exact Ls|reflexivity]).
      assert (length s <= n); [|lia]. eapply number_le; [|exact Ns|exact Nn]. intros j a Ha ((cen & Ec & G) & Ez & Nj). split; [|split; assumption]. exists cen. split; [exact Ec|].
      unfold strictly_within. destruct (leb rcut (dist (snd a) (snd cen))) eqn:X; [|reflexivity]. exfalso. apply (Hoff c cen j a Ic Ec Ha). split; assumption.
    - apply nth_error_None in K. assert (i < length sels) by (apply nth_error_Some; congruence). assert (X := forall2_len _ _ _ F). lia. }
  destruct (Ok1 Hr) as (rows & Er & _). exists table, rows. split; assumption.
Qed.
End Table.
End Glue.

Lemma extract_pair {P D : Type} (dist : P -> P -> D) (leb : D -> D -> bool) (argsort : list D -> list nat) (zeroP : P) (zeroD : D) :
  total_preorder leb -> sorts leb argsort ->
  forall (sub : P -> P -> P) (atoms : list (Z * P)) (centres : list nat) (rcut : D) (center nbr : Z),
  Forall (isolated dist leb atoms rcut) centres -> centres <> [] -> nbr <> 0%Z ->
  exists table sels real, key_neighs_info dist leb argsort zeroP zeroD atoms centres rcut = Ok table /\
    Forall2 (pair_neighbours dist leb atoms rcut nbr) (centres_of atoms center centres) sels /\ widest sels real /\
    exists ans ds rcs, extract_feature_pair zeroP zeroD sub table center nbr = Ok (real, (ans, ds, rcs)) /\
     length ans = length sels /\ length ds = length sels /\ length rcs = length sels /\
     forall i c sel, nth_error (centres_of atoms center centres) i = Some c -> nth_error sels i = Some sel ->
     exists cen a d rc, nth_error atoms c = Some cen /\ nth_error ans i = Some a /\ nth_error ds i = Some d /\ nth_error rcs i = Some rc /\
       shows fst 0%Z real atoms sel a /\ shows (fun a => dist (snd a) (snd cen)) zeroD real atoms sel d /\
       shows (fun a => sub (snd a) (snd cen)) zeroP real atoms sel rc.
Proof.
  intros H1 H2 sub atoms centres rcut center nbr I K N. destruct (pair_all dist leb argsort zeroP zeroD H1 H2 sub atoms centres rcut center nbr I K N) as (table & sels & real & E & F & W & X & _).
  exists table, sels, real. split; [exact E|]. split; [exact F|]. split; [exact W|exact X].
Qed.
