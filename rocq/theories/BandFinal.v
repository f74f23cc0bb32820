(** Proofs for [BandProps]: the reported lists, gap and gap type, and reading a report. *)
From Coq Require Import QArith Qround Qabs Lqa.
From Verif Require Import Text TextProofs DataModel BandModel BandSpec BandProofs BandEdges.
Open Scope nat_scope.
Open Scope list_scope.

(** ** Metals *)
Lemma in_column a b x : In x (column a b) <-> exists r, In r a /\ nth_error r b = Some x.
Proof.
  unfold column. rewrite in_flat_map. split; intros (r & H & H'); exists r; (split; [exact H|]); [destruct (nth_error r b); [destruct H' as [<-|[]]; reflexivity|destruct H']|rewrite H'; now left].
Qed.
Lemma in_column_eigen t s b x : 0 < b -> In x (column (rows t s) (b - 1)) <-> exists k, eigenvalue t s k b x.
Proof.
  intros B. rewrite in_column. unfold eigenvalue. split.
  - intros (r & I & E). apply In_nth_error in I. destruct I as [k K]. exists (k + 1). split; [lia|]. split; [exact B|]. exists r. split; [|exact E]. now rewrite Nat.add_sub.
  - intros (k & _ & _ & r & K & E). exists r. split; [now apply nth_error_In in K|exact E].
Qed.
Lemma is_metal_iff t ef n : rectangular t n -> (is_metal t ef = true <-> exists s b, crosses t ef s b).
Proof.
  intros [_ R]. unfold is_metal. rewrite existsb_exists. split.
  - intros (s & _ & H). apply existsb_exists in H. destruct H as (b & _ & H). apply andb_true_iff in H. destruct H as [A B].
    apply existsb_exists in A. destruct A as (x & A & A'). apply existsb_exists in B. destruct B as (y & B & B'). apply Qltb_lt in A'. apply Qltb_lt in B'. unfold tol in *.
    exists s, (b + 1). replace b with (b + 1 - 1) in A, B by lia. apply in_column_eigen in A; [|lia]. apply in_column_eigen in B; [|lia]. destruct A as [k A]. destruct B as [k' B].
    split; [exists k, x|exists k', y]; (split; [assumption|lra]).
  - intros (s & b & (k & x & A & A') & (k' & y & B & B')). exists s. split; [destruct s; cbn; tauto|]. apply existsb_exists. exists (b - 1).
    assert (b0 : 0 < b) by (unfold eigenvalue in A; tauto). split.
    + apply in_seq. destruct A as (_ & _ & r & K & J). apply nth_error_In in K as K'. assert (L : b - 1 < List.length r) by (apply nth_error_Some; congruence). rewrite (R s r K') in L.
      unfold num_columns. destruct (rows t s) as [|r0 rs] eqn:E; [destruct K'|]. rewrite (R s r0); [lia|rewrite E; now left].
    + apply andb_true_iff. split; apply existsb_exists; [exists x|exists y]; (split; [apply in_column_eigen; eauto|]); apply Qltb_lt; unfold tol; lra.
Qed.

(** ** Shared levels *)
Definition shared_at (t : table) (k : nat) (e : option Q) (n : nat) : list (spin * nat) :=
  flat_map (fun s => map (pair s) (filter (fun j => shares t s k j e) (seq 0 n))) [Up; Down].

Lemma add_inner (offset : nat) t e k s l : forall d,
  fold_left (fun d j => if shares t s k j e then mkEdges (e_energies d ++ [e]) (e_kpts d ++ [k]) (e_bands d ++ [j + offset]) (e_spins d ++ [Some s]) else d) l d =
  let m := filter (fun j => shares t s k j e) l in
  mkEdges (e_energies d ++ map (fun _ => e) m) (e_kpts d ++ map (fun _ => k) m) (e_bands d ++ map (fun j => j + offset) m) (e_spins d ++ map (fun _ => Some s) m).
Proof.
  induction l as [|j l IH]; intros d; cbn [fold_left filter]; [cbn; rewrite !app_nil_r; now destruct d|]. destruct (shares t s k j e) eqn:E; rewrite IH; cbn zeta; [|reflexivity].
  cbn [e_energies e_kpts e_bands e_spins map]. now rewrite <- !app_assoc.
Qed.
Lemma add_shared_eq offset t e k b s : add_shared offset t (e, k, b, s) =
  let l := shared_at t k e (num_columns (t_up t)) in
  mkEdges (e :: map (fun _ => e) l) (k :: map (fun _ => k) l) (b :: map (fun p => snd p + offset) l) (s :: map (fun p => Some (fst p)) l).
Proof.
  unfold add_shared, shared_at. cbn [fold_left flat_map]. rewrite app_nil_r, !add_inner. cbn zeta. cbn [e_energies e_kpts e_bands e_spins]. rewrite !map_app, !map_map. cbn [fst snd app].
  rewrite <- ?app_assoc. reflexivity.
Qed.

Lemma filter_shift (p : nat -> bool) n : forall k, map (fun j => j + 1) (filter p (seq k n)) = filter (fun b => p (b - 1)) (seq (S k) n).
Proof.
  induction n as [|n IH]; intros k; cbn [seq filter]; [reflexivity|]. replace (S k - 1) with k by lia. destruct (p k); cbn [map]; rewrite IH; [f_equal; lia|reflexivity].
Qed.
Lemma shares_iff t s k j e : shares t s k j (Some e) = true <-> exists x, eigenvalue t s (k + 1) (j + 1) x /\ (Qabs (x - e) < 1 # 1000)%Q.
Proof.
  unfold shares, eigenvalue. rewrite !Nat.add_sub. unfold get. destruct (nth_error (rows t s) k) as [r|] eqn:K; cbn [bind].
  - destruct (nth_error r j) as [x|] eqn:J; cbn [bind].
    + rewrite Qltb_lt. split; [intros H; exists x; split; [|exact H]; split; [lia|]; split; [lia|]; eauto|].
      intros (y & (_ & _ & r' & E & E') & H). injection E as <-. rewrite J in E'. injection E' as <-. exact H.
    + split; [discriminate|]. intros (y & (_ & _ & r' & E & E') & _). injection E as <-. congruence.
  - split; [discriminate|]. intros (y & (_ & _ & r' & E & E') & _). discriminate.
Qed.
Lemma close_ok t s k e n : close_bands t s (k + 1) e n (map (fun j => j + 1) (filter (fun j => shares t s k j (Some e)) (seq 0 n))).
Proof.
  exists (fun b => shares t s k (b - 1) (Some e)). split; [now rewrite filter_shift|]. intros b B. rewrite shares_iff. now replace (b - 1 + 1) with b by lia.
Qed.

Lemma shared_reported offset t e k b s n : rectangular t n -> exists ups downs,
  close_bands t Up (k + 1) e n ups /\ close_bands t Down (k + 1) e n downs /\
  add_shared offset t (Some e, k, b, s) =
  mkEdges (Some e :: map (fun _ => Some e) (ups ++ downs)) (k :: map (fun _ => k) (ups ++ downs))
    (b :: map (fun j => j - 1 + offset) (ups ++ downs)) (s :: map (fun _ => Some Up) ups ++ map (fun _ => Some Down) downs).
Proof.
  intros [N R]. exists (map (fun j => j + 1) (filter (fun j => shares t Up k j (Some e)) (seq 0 n))), (map (fun j => j + 1) (filter (fun j => shares t Down k j (Some e)) (seq 0 n))).
  split; [apply close_ok|]. split; [apply close_ok|]. rewrite add_shared_eq. cbn zeta.
  replace (num_columns (t_up t)) with n. 2:{ unfold num_columns. destruct (t_up t) as [|r rs] eqn:E; [contradiction|]. symmetry. apply (R Up). cbn. rewrite E. now left. }
  unfold shared_at. cbn [flat_map]. rewrite app_nil_r, !map_app, !map_map. cbn [fst snd]. f_equal. f_equal. f_equal; apply map_ext; intros; lia.
Qed.

(** Nothing is added at the last k-point. *)
Lemma close_last t s k e n bs : List.length (rows t s) <= k -> close_bands t s (k + 1) e n bs -> bs = [].
Proof.
  intros L (p & -> & H). assert (G : forall b, In b (seq 1 n) -> p b = false).
  { intros b I. apply in_seq in I. destruct (p b) eqn:E; [|reflexivity]. apply H in E; [|lia]. destruct E as (x & (_ & _ & r & K & _) & _).
    rewrite Nat.add_sub in K. exfalso. assert (k < List.length (rows t s)) by (apply nth_error_Some; congruence). lia. }
  revert G. generalize (seq 1 n). induction l as [|b l IH]; cbn; intros G; [reflexivity|]. rewrite (G b); [auto|now left].
Qed.

(** ** Reported edges *)
Lemma nonmetal t ef n : rectangular t n -> ~ (exists s b, crosses t ef s b) ->
  get_cbm t ef = Ok (Some (add_shared 1 t (cbm_scan t ef))) /\ get_vbm t ef = Ok (Some (add_shared 0 t (vbm_scan t ef))).
Proof.
  intros R N. unfold get_cbm, get_vbm, shape1. destruct (is_metal t ef) eqn:M; [apply (is_metal_iff t ef n R) in M; contradiction|].
  destruct R as [R _]. destruct (t_up t); [contradiction|]. split; reflexivity.
Qed.
Lemma metal t ef n : rectangular t n -> (exists s b, crosses t ef s b) ->
  get_cbm t ef = Ok None /\ get_vbm t ef = Ok None /\ get_bandgap t ef = Err TypeError /\ get_bandgap_type t ef = Err TypeError.
Proof.
  intros R H. apply (is_metal_iff t ef n R) in H. unfold get_bandgap, get_bandgap_type, get_cbm, get_vbm. rewrite H. cbn. auto.
Qed.

Lemma cbm_reported t ef n : rectangular t n -> ~ (exists s b, crosses t ef s b) -> (exists s k b x, eigenvalue t s k b x /\ (ef <= x)%Q) ->
  exists s k b x m ups downs, get_cbm t ef = Ok (Some (mkEdges (Some (round4 x) :: map (fun _ => Some (round4 x)) (ups ++ downs)) (k :: map (fun _ => k) (ups ++ downs))
      (b :: ups ++ downs) (Some s :: map (fun _ => Some Up) ups ++ map (fun _ => Some Down) downs))) /\
  eigenvalue t s k b x /\ (ef <= x)%Q /\ lowest_above t ef m /\ (round4 x == round4 m)%Q /\
  close_bands t Up (k + 1) (round4 x) n ups /\ close_bands t Down (k + 1) (round4 x) n downs.
Proof.
  intros R N H. destruct (nonmetal t ef n R N) as [-> _]. destruct (cbm_found t ef H) as (s & k & b & x & m & -> & A & B & C & D).
  destruct (shared_reported 1 t (round4 x) k b (Some s) n R) as (ups & downs & U & V & ->). exists s, k, b, x, m, ups, downs.
  split; [|tauto]. f_equal. f_equal. f_equal. f_equal.
  rewrite <- (map_id (ups ++ downs)) at 2. apply map_ext_in. intros j J. enough (0 < j) by lia.
  destruct U as (p & -> & _). destruct V as (q & -> & _). apply in_app_iff in J. destruct J as [J|J]; apply filter_In in J; destruct J as [J _]; apply in_seq in J; lia.
Qed.
Lemma vbm_reported t ef n : rectangular t n -> ~ (exists s b, crosses t ef s b) -> (exists s k b x, eigenvalue t s k b x /\ (x <= ef)%Q) ->
  exists s k b x m ups downs, get_vbm t ef = Ok (Some (mkEdges (Some (round4 x) :: map (fun _ => Some (round4 x)) (ups ++ downs)) (k :: map (fun _ => k) (ups ++ downs))
      (b :: map (fun j => j - 1) (ups ++ downs)) (Some s :: map (fun _ => Some Up) ups ++ map (fun _ => Some Down) downs))) /\
  eigenvalue t s k b x /\ (x <= ef)%Q /\ highest_below t ef m /\ (round4 x == round4 m)%Q /\
  close_bands t Up (k + 1) (round4 x) n ups /\ close_bands t Down (k + 1) (round4 x) n downs.
Proof.
  intros R N H. destruct (nonmetal t ef n R N) as [_ ->]. destruct (vbm_found t ef H) as (s & k & b & x & m & -> & A & B & C & D).
  destruct (shared_reported 0 t (round4 x) k b (Some s) n R) as (ups & downs & U & V & ->). exists s, k, b, x, m, ups, downs.
  split; [|tauto]. f_equal. f_equal. f_equal. f_equal. apply map_ext. intros; lia.
Qed.

(** ** Gap *)
Lemma gap_value t ef n mc mv : rectangular t n -> ~ (exists s b, crosses t ef s b) -> lowest_above t ef mc -> highest_below t ef mv ->
  exists g, get_bandgap t ef = Ok (Some g) /\ (g == round4 mc - round4 mv)%Q /\ (0 <= g)%Q.
Proof.
  intros R N [[s1 [k1 [b1 C1]]] [C2 C3]] [[s2 [k2 [b2 V1]]] [V2 V3]].
  destruct (cbm_reported t ef n R N) as (s & k & b & x & m & ups & downs & E & _ & _ & [[s3 [k3 [b3 M1]]] [M2 M3]] & Q & _); [exists s1, k1, b1, mc; auto|].
  destruct (vbm_reported t ef n R N) as (s' & k' & b' & x' & m' & ups' & downs' & E' & _ & _ & [[s4 [k4 [b4 W1]]] [W2 W3]] & Q' & _); [exists s2, k2, b2, mv; auto|].
  unfold get_bandgap. rewrite E, E'. cbn. exists (round4 x - round4 x')%Q. split; [reflexivity|].
  assert (A : (m == mc)%Q) by (apply Qle_antisym; eauto). assert (B : (m' == mv)%Q) by (apply Qle_antisym; eauto).
  assert (A' : (round4 m == round4 mc)%Q) by (apply Qle_antisym; apply round4_mono; lra). assert (B' : (round4 m' == round4 mv)%Q) by (apply Qle_antisym; apply round4_mono; lra).
  assert (L : (round4 mv <= round4 mc)%Q) by (apply round4_mono; lra). split; lra.
Qed.

Lemma gap_positive t ef n mc mv g : rectangular t n -> four_decimals t -> ~ (exists s b, crosses t ef s b) -> lowest_above t ef mc -> highest_below t ef mv ->
  get_bandgap t ef = Ok (Some g) -> (g == mc - mv)%Q /\ ((0 < g)%Q <-> forall s k b x, eigenvalue t s k b x -> ~ (x == ef)%Q).
Proof.
  intros R D N C V G. destruct (gap_value t ef n mc mv R N C V) as (g' & G' & E & _). rewrite G in G'. injection G' as <-.
  destruct C as [[s1 [k1 [b1 C1]]] [C2 C3]]. destruct V as [[s2 [k2 [b2 V1]]] [V2 V3]].
  pose proof (four_exact t _ _ _ _ D C1). pose proof (four_exact t _ _ _ _ D V1). split; [lra|]. split.
  - intros P s k b x X Y. assert (mc <= x)%Q by (apply (C3 s k b); [exact X|lra]). assert (x <= mv)%Q by (apply (V3 s k b); [exact X|lra]). lra.
  - intros P. destruct (Qlt_le_dec mv mc); [lra|]. exfalso. apply (P s1 k1 b1 mc C1). lra.
Qed.

Lemma gap_infinite t ef n : rectangular t n -> ~ (exists s b, crosses t ef s b) ->
  (forall s k b x, eigenvalue t s k b x -> (x < ef)%Q) \/ (forall s k b x, eigenvalue t s k b x -> (ef < x)%Q) -> get_bandgap t ef = Ok None.
Proof.
  intros R N H. unfold get_bandgap. destruct (nonmetal t ef n R N) as [-> ->]. cbn [bind].
  destruct (cbm_scan t ef) as [[[ec kc] bc] sc] eqn:C. destruct (vbm_scan t ef) as [[[ev kv] bv] sv] eqn:V. rewrite !add_shared_eq. cbn.
  destruct H as [H|H]; [rewrite (cbm_none t ef H) in C; injection C as <- <- <- <-; reflexivity|rewrite (vbm_none t ef H) in V; injection V as <- <- <- <-; now destruct ec].
Qed.

(** ** Direct or indirect *)
Lemma existsb_const {A} (k : nat) (l : list A) k' : existsb (Nat.eqb k') (k :: map (fun _ => k) l) = (k' =? k).
Proof. cbn. destruct (k' =? k) eqn:E; [reflexivity|]. cbn. induction l; cbn; [reflexivity|]. now rewrite E. Qed.
Lemma existsb_all_const {A} (g : nat -> bool) (k : nat) (l : list A) : existsb g (k :: map (fun _ => k) l) = g k.
Proof. cbn. destruct (g k) eqn:E; [reflexivity|]. cbn. induction l; cbn; [reflexivity|]. now rewrite E. Qed.
Lemma gap_type t ef c v : get_cbm t ef = Ok (Some c) -> get_vbm t ef = Ok (Some v) ->
  exists kc kv, hd_error (e_kpts c) = Some kc /\ hd_error (e_kpts v) = Some kv /\ Forall (eq kc) (e_kpts c) /\ Forall (eq kv) (e_kpts v) /\
  get_bandgap_type t ef = Ok (if kv =? kc then 1 else 0).
Proof.
  intros C V. unfold get_bandgap_type. rewrite C, V. cbn [bind].
  assert (C' : exists b, c = add_shared 1 t b). { unfold get_cbm in C. destruct (is_metal t ef); [discriminate|]. destruct (shape1 t); [|discriminate]. cbn in C. injection C as <-. eauto. }
  assert (V' : exists b, v = add_shared 0 t b). { unfold get_vbm in V. destruct (is_metal t ef); [discriminate|]. destruct (shape1 t); [|discriminate]. cbn in V. injection V as <-. eauto. }
  destruct C' as [[[[ec kc] bc] sc] ->]. destruct V' as [[[[ev kv] bv] sv] ->]. rewrite !add_shared_eq. cbn zeta. cbn [e_kpts hd_error].
  exists kc, kv. split; [reflexivity|]. split; [reflexivity|]. split; [constructor; [reflexivity|]; apply Forall_forall; intros x I; apply in_map_iff in I; destruct I as [? [<- _]]; reflexivity|].
  split; [constructor; [reflexivity|]; apply Forall_forall; intros x I; apply in_map_iff in I; destruct I as [? [<- _]]; reflexivity|]. f_equal.
  rewrite (existsb_all_const (fun k => existsb (Nat.eqb k) (kc :: map (fun _ => kc) _))), existsb_const. reflexivity.
Qed.

Lemma cbm_first_reported t ef c e k b s : four_decimals t -> get_cbm t ef = Ok (Some c) ->
  hd_error (e_energies c) = Some (Some e) -> hd_error (e_kpts c) = Some k -> hd_error (e_bands c) = Some b -> hd_error (e_spins c) = Some (Some s) ->
  (exists x, eigenvalue t s k b x /\ (x == e)%Q) /\
  forall s' k' b' x, eigenvalue t s' k' b' x -> (ef <= x)%Q -> before (s', k', b') (s, k, b) -> (e < x)%Q.
Proof.
  intros D C. unfold get_cbm in C. destruct (is_metal t ef); [discriminate|]. destruct (shape1 t); [|discriminate]. cbn [bind] in C. injection C as <-.
  destruct (cbm_scan t ef) as [[[e0 k0] b0] s0] eqn:E. rewrite add_shared_eq. cbn. intros A1 A2 A3 A4. injection A1 as ->. injection A2 as ->. injection A3 as ->. injection A4 as ->.
  now apply cbm_first.
Qed.
Lemma vbm_first_reported t ef c e k b s : four_decimals t -> get_vbm t ef = Ok (Some c) ->
  hd_error (e_energies c) = Some (Some e) -> hd_error (e_kpts c) = Some k -> hd_error (e_bands c) = Some b -> hd_error (e_spins c) = Some (Some s) ->
  (exists x, eigenvalue t s k b x /\ (x == e)%Q) /\
  forall s' k' b' x, eigenvalue t s' k' b' x -> (x <= ef)%Q -> before (s', k', b') (s, k, b) -> (x < e)%Q.
Proof.
  intros D C. unfold get_vbm in C. destruct (is_metal t ef); [discriminate|]. destruct (shape1 t); [|discriminate]. cbn [bind] in C. injection C as <-.
  destruct (vbm_scan t ef) as [[[e0 k0] b0] s0] eqn:E. rewrite add_shared_eq. cbn. intros A1 A2 A3 A4. injection A1 as ->. injection A2 as ->. injection A3 as ->. injection A4 as ->.
  now apply vbm_first.
Qed.

(** ** Rounding, the Fermi energy, tables without levels *)
Lemma round_int_near z : (Qabs (z - inject_Z (round_int z)) <= 1 # 2)%Q /\ ((Qabs (z - inject_Z (round_int z)) == 1 # 2)%Q -> Z.even (round_int z) = true).
Proof.
  unfold round_int. assert (L := Qfloor_le z). assert (U := Qlt_floor z). rewrite inject_Z_plus in U. change (inject_Z 1) with 1%Q in U. set (f := Qfloor z) in *.
  assert (P : (z - inject_Z (f + 1) == z - inject_Z f - 1)%Q) by (rewrite inject_Z_plus; change (inject_Z 1) with 1%Q; ring).
  destruct (Qcompare_spec (z - inject_Z f) (1 # 2)) as [E|E|E].
  - destruct (Z.even f) eqn:Ev.
    + rewrite Qabs_pos by lra. split; [lra|intros _; exact Ev].
    + rewrite P. rewrite Qabs_neg by lra. split; [lra|]. intros _. rewrite Z.even_add, Ev. reflexivity.
  - rewrite Qabs_pos by lra. split; [lra|]. intros X. exfalso. lra.
  - rewrite P. rewrite Qabs_neg by lra. split; [lra|]. intros X. exfalso. lra.
Qed.
Lemma round_to_ok s x : rounds_to s x (round_to s x).
Proof.
  unfold rounds_to, round_to. exists (round_int (x * (Zpos s # 1))). split; [reflexivity|]. destruct (round_int_near (x * (Zpos s # 1))) as [A B]. set (n := round_int (x * (Zpos s # 1))) in *. clearbody n.
  assert (E : (x - (n # s) == (x * (Zpos s # 1) - inject_Z n) * (1 # s))%Q).
  { assert (X1 : (n # s == inject_Z n * (1 # s))%Q) by (unfold Qeq; cbn; ring). assert (X2 : ((Zpos s # 1) * (1 # s) == 1)%Q) by (unfold Qeq; cbn; lia). rewrite X1. rewrite <- (Qmult_1_r x) at 1. rewrite <- X2. ring. }
  assert (H : (1 # (2 * s) == (1 # 2) * (1 # s))%Q) by (unfold Qeq; cbn; lia).
  assert (P : (0 < 1 # s)%Q) by reflexivity.
  assert (AE : (Qabs (x - (n # s)) == Qabs (x * (Zpos s # 1) - inject_Z n) * (1 # s))%Q) by (rewrite E, Qabs_Qmult; rewrite (Qabs_pos (1 # s)) by lra; reflexivity).
  rewrite AE, H. split; [apply Qmult_le_compat_r; lra|]. intros T. apply B. apply (Qmult_inj_r _ _ (1 # s)); [lra|exact T].
Qed.
Lemma round4_ok x : rounds_to 10000 x (round4 x).
Proof. exact (round_to_ok 10000 x). Qed.
Lemma fermi_ok float_of row ts t u x : split_ws row = ts ++ [t; u] -> float_of t = Ok x -> exists ef, get_efermi float_of row = Ok ef /\ rounds_to 1000 x ef.
Proof.
  intros E H. exists (round3 x). split; [|exact (round_to_ok 1000 x)]. unfold get_efermi. rewrite E, rev_app_distr. cbn [rev app]. rewrite H. reflexivity.
Qed.
Lemma fermi_short float_of row : List.length (split_ws row) <= 1 -> get_efermi float_of row = Err IndexError.
Proof. unfold get_efermi. destruct (split_ws row) as [|t [|u l]]; cbn; intros H; try reflexivity. lia. Qed.
Lemma no_rows t ef n : t_up t = [] -> (forall s r, In r (rows t s) -> List.length r = n) -> ~ (exists s b, crosses t ef s b) ->
  get_cbm t ef = Err IndexError /\ get_vbm t ef = Err IndexError.
Proof.
  intros E Hr Hc. assert (M : is_metal t ef = false).
  { destruct (is_metal t ef) eqn:M; [|reflexivity]. exfalso. apply Hc. unfold is_metal in M. cbn [existsb] in M. rewrite orb_false_r in M. apply orb_prop in M. destruct M as [M|M].
    - cbn [rows] in M. rewrite E in M. cbn in M. discriminate.
    - apply existsb_exists in M. destruct M as (b & _ & M). apply andb_prop in M. destruct M as [M1 M2]. apply existsb_exists in M1, M2. destruct M1 as (x & Ix & X), M2 as (y & Iy & Y).
      exists Down, (b + 1). replace b with (b + 1 - 1) in Ix, Iy by lia. apply in_column_eigen in Ix, Iy; try lia. destruct Ix as (k & Ix), Iy as (k' & Iy). apply Qltb_lt in X, Y. unfold tol in *. split; [exists k, x|exists k', y]; (split; [assumption|lra]). }
  unfold get_cbm, get_vbm. rewrite M. unfold shape1. rewrite E. split; reflexivity.
Qed.
Lemma shares_none t s k j : shares t s k j None = false.
Proof. reflexivity. Qed.
Lemma add_none offset t : add_shared offset t no_best = mkEdges [None] [0] [0] [None].
Proof.
  unfold no_best. rewrite add_shared_eq. unfold shared_at. cbn [flat_map].
  assert (X : forall s, filter (fun j => shares t s 0 j None) (seq 0 (num_columns (t_up t))) = []) by (intros s; induction (seq 0 (num_columns (t_up t))) as [|j l IH]; [reflexivity|exact IH]).
  rewrite !X. reflexivity.
Qed.
Lemma no_levels t ef n : rectangular t n -> ~ (exists s b, crosses t ef s b) ->
  ((forall s k b x, eigenvalue t s k b x -> (x < ef)%Q) -> get_cbm t ef = Ok (Some (mkEdges [None] [0] [0] [None]))) /\
  ((forall s k b x, eigenvalue t s k b x -> (ef < x)%Q) -> get_vbm t ef = Ok (Some (mkEdges [None] [0] [0] [None]))).
Proof.
  intros Hr Hc. assert (M : is_metal t ef = false) by (destruct (is_metal t ef) eqn:M; [exfalso; apply Hc; apply (is_metal_iff t ef n Hr); exact M|reflexivity]).
  assert (S1 : shape1 t = Ok tt) by (unfold shape1; destruct (t_up t) eqn:E; [exfalso; apply (proj1 Hr); exact E|reflexivity]).
  unfold get_cbm, get_vbm. rewrite M, S1. cbn [bind]. split; intros H; [rewrite (cbm_none t ef H)|rewrite (vbm_none t ef H)]; rewrite add_none; reflexivity.
Qed.
