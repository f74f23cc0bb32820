From Verif Require Import Vec StructSpec StructProofs NeighSpec NeighModel NeighReal AdjModel AdjSpec.
Open Scope nat_scope.
Open Scope list_scope.

Lemma shift_range_in s k : (0 < s)%Z -> (In k (shift_range s) <-> (Z.abs k <= shift_of s)%Z).
Proof.
  intros Hs. assert (H0 : (0 <= shift_of s)%Z) by (unfold shift_of; apply Z.div_pos; lia). unfold shift_range. rewrite in_map_iff. split.
  - intros (x & <- & I). apply in_seq in I. lia.
  - intros H. exists (Z.to_nat (k + shift_of s)). split; [lia|]. apply in_seq. lia.
Qed.
Lemma shift_range_nodup s : NoDup (shift_range s).
Proof. unfold shift_range. apply FinFun.Injective_map_NoDup; [intros x y; lia|apply seq_NoDup]. Qed.
Lemma shift_range_length s : (0 < s)%Z -> Z.of_nat (length (shift_range s)) = (2 * shift_of s + 1)%Z.
Proof. intros Hs. assert (H0 : (0 <= shift_of s)%Z) by (unfold shift_of; apply Z.div_pos; lia). unfold shift_range. rewrite map_length, seq_length. lia. Qed.

Lemma shifts_grid s0 s1 s2 : frac_shifts s0 s1 s2 = grid3 (shift_range s0) (shift_range s1) (shift_range s2).
Proof. reflexivity. Qed.

Lemma shift_odd s : positive_odd s -> (2 * shift_of s + 1 = s)%Z.
Proof. intros [H [k ->]]. unfold shift_of. replace (2 * k + 1 - 1)%Z with (k * 2)%Z by lia. rewrite Z.div_mul by lia. lia. Qed.

Lemma columns_odd s0 s1 s2 : positive_odd s0 -> positive_odd s1 -> positive_odd s2 ->
  exists cols, columns s0 s1 s2 = Ok cols /\ NoDup cols /\ forall t, In t cols <-> in_box s0 s1 s2 t.
Proof.
  intros O0 O1 O2. exists (frac_shifts s0 s1 s2). assert (P0 := proj1 O0). assert (P1 := proj1 O1). assert (P2 := proj1 O2). split; [|split].
  - unfold columns. assert (L : length (frac_shifts s0 s1 s2) = Z.to_nat (s0 * s1 * s2)).
    { rewrite shifts_grid, grid3_length. assert (E0 := shift_range_length s0 P0). assert (E1 := shift_range_length s1 P1). assert (E2 := shift_range_length s2 P2). rewrite shift_odd in E0, E1, E2 by assumption.
      apply Nat2Z.inj. rewrite Z2Nat.id by (apply Z.mul_nonneg_nonneg; [apply Z.mul_nonneg_nonneg|]; lia). rewrite !Nat2Z.inj_mul, E0, E1, E2. ring. }
    rewrite <- L. destruct (frac_shifts s0 s1 s2) as [|t [|u l]]; [reflexivity|reflexivity|]. rewrite Nat.eqb_refl. reflexivity.
  - rewrite shifts_grid. apply grid3_nodup; apply shift_range_nodup.
  - intros [[a b] c]. rewrite shifts_grid, grid3_in, !shift_range_in by assumption. assert (E0 := shift_odd s0 O0). assert (E1 := shift_odd s1 O1). assert (E2 := shift_odd s2 O2). unfold in_box. lia.
Qed.

Lemma flat_single a b c l0 l1 l2 : l0 = [a] -> l1 = [b] -> l2 = [c] -> grid3 l0 l1 l2 = [(a, b, c)].
Proof. intros -> -> ->. reflexivity. Qed.
Lemma range_one s : (s = 1 \/ s = 2)%Z -> shift_range s = [0%Z].
Proof. intros [-> | ->]; reflexivity. Qed.

Lemma columns_small s0 s1 s2 : (s0 = 1 \/ s0 = 2)%Z -> (s1 = 1 \/ s1 = 2)%Z -> (s2 = 1 \/ s2 = 2)%Z -> columns s0 s1 s2 = Ok (repeat (0, 0, 0)%Z (Z.to_nat (s0 * s1 * s2))).
Proof. intros H0 H1 H2. unfold columns. rewrite shifts_grid, (flat_single 0%Z 0%Z 0%Z) by (apply range_one; assumption). reflexivity. Qed.

Lemma shift_bounds s : (0 < s)%Z -> (1 <= 2 * shift_of s + 1 <= s /\ (Z.Even s -> 2 * shift_of s + 1 < s) /\ (3 <= s -> 3 <= 2 * shift_of s + 1))%Z.
Proof. intros H. unfold shift_of. assert (D := Z.div_mod (s - 1) 2 ltac:(lia)). assert (M := Z.mod_pos_bound (s - 1) 2 ltac:(lia)). split; [lia|]. split; [intros [k ->]; lia|lia]. Qed.

Lemma mul3_lt (a b c x y z : Z) : (1 <= a <= x)%Z -> (1 <= b <= y)%Z -> (1 <= c <= z)%Z -> (a < x \/ b < y \/ c < z)%Z -> (a * (b * c) < x * y * z)%Z.
Proof. intros Ha Hb Hc H. assert (1 <= b * c)%Z by nia. assert (b * c <= y * z)%Z by nia. assert (a * (b * c) <= x * (y * z))%Z by nia. replace (x * y * z)%Z with (x * (y * z))%Z by ring.
  destruct H as [H|[H|H]]; [nia| |]; (assert (b * c < y * z)%Z by nia; nia). Qed.

Lemma columns_even s0 s1 s2 : (0 < s0)%Z -> (0 < s1)%Z -> (0 < s2)%Z -> (Z.Even s0 \/ Z.Even s1 \/ Z.Even s2) -> (3 <= s0 \/ 3 <= s1 \/ 3 <= s2)%Z -> columns s0 s1 s2 = Err ValueError.
Proof.
  intros P0 P1 P2 He Hb. assert (L : Z.of_nat (length (frac_shifts s0 s1 s2)) = ((2 * shift_of s0 + 1) * ((2 * shift_of s1 + 1) * (2 * shift_of s2 + 1)))%Z).
  { rewrite shifts_grid, grid3_length, !Nat2Z.inj_mul, !shift_range_length by assumption. reflexivity. }
  destruct (shift_bounds s0 P0) as (B0 & E0 & T0), (shift_bounds s1 P1) as (B1 & E1 & T1), (shift_bounds s2 P2) as (B2 & E2 & T2).
  set (x0 := (2 * shift_of s0 + 1)%Z) in *. set (x1 := (2 * shift_of s1 + 1)%Z) in *. set (x2 := (2 * shift_of s2 + 1)%Z) in *. clearbody x0 x1 x2.
  assert (Lt : (x0 * (x1 * x2) < s0 * s1 * s2)%Z) by (apply mul3_lt; try assumption; tauto). assert (G3 : (3 <= x0 * (x1 * x2))%Z).
  { assert (1 <= x1 * x2)%Z by nia. assert (x1 <= x1 * x2)%Z by nia. assert (x2 <= x1 * x2)%Z by nia. destruct Hb as [H3|[H3|H3]]; [specialize (T0 H3)|specialize (T1 H3)|specialize (T2 H3)]; nia. }
  rewrite <- L in Lt, G3. unfold columns. destruct (frac_shifts s0 s1 s2) as [|t [|u l]] eqn:E; [cbn in G3; lia|cbn in G3; lia|]. destruct (Nat.eqb_spec (length (t :: u :: l)) (Z.to_nat (s0 * s1 * s2))) as [X|X]; [lia|reflexivity].
Qed.

(** ** The loop *)
Section Loop.
Variables (A B C : vec) (rcut : R).
Variables (cols : list (Z * Z * Z)) (fracs : list vec).
Let cnt i j : Z := match nth_error fracs i, nth_error fracs j with Some fi, Some fj => count_near A B C rcut cols fi fj | _, _ => 0%Z end.

Lemma cnt_nonneg i j : (0 <= cnt i j)%Z.
Proof. unfold cnt, count_near. destruct (nth_error fracs i), (nth_error fracs j); lia. Qed.

Lemma visit_spec m i j a b : (forall x y, m x y = 0%Z \/ (x <= y /\ m x y = cnt x y) \/ (y < x /\ m x y = cnt y x)) -> i <= j ->
  visit A B C rcut cols fracs m (i, j) a b = if ((a =? i) && (b =? j)) || ((a =? j) && (b =? i)) then (if (0 <? cnt i j)%Z then cnt i j else m a b) else m a b.
Proof.
  intros Hm Hij. unfold visit. unfold cnt. destruct (nth_error fracs i) as [fi|]; [|destruct (_ || _); reflexivity]. destruct (nth_error fracs j) as [fj|]; [|destruct (_ || _); reflexivity].
  destruct (0 <? count_near A B C rcut cols fi fj)%Z; [|destruct (_ || _); reflexivity]. unfold set_entry.
  destruct ((a =? j) && (b =? i)) eqn:E1; [rewrite orb_true_r; reflexivity|]. rewrite orb_false_r. reflexivity.
Qed.

Definition done (ps : list (nat * nat)) (m : nat -> nat -> Z) : Prop :=
  forall x y, m x y = (if existsb (fun p => ((fst p =? x) && (snd p =? y)) || ((fst p =? y) && (snd p =? x))) ps then cnt (Nat.min x y) (Nat.max x y) else 0%Z).

Lemma fold_visit ps : Forall (fun p => fst p <= snd p) ps -> forall qs m, done qs m -> done (qs ++ ps) (fold_left (visit A B C rcut cols fracs) ps m).
Proof.
  induction 1 as [|[i j] ps Hij _ IH]; intros qs m Hd; [rewrite app_nil_r; exact Hd|]. cbn [fold_left]. cbn [fst snd] in Hij. change (qs ++ (i, j) :: ps) with (qs ++ [(i, j)] ++ ps). rewrite app_assoc. apply IH.
  intros x y. rewrite visit_spec; [|clear x y; intros x y|exact Hij].
  - rewrite existsb_app. cbn [existsb fst snd]. rewrite orb_false_r. rewrite (Hd x y). rewrite (Nat.eqb_sym x i), (Nat.eqb_sym y j), (Nat.eqb_sym x j), (Nat.eqb_sym y i).
    replace ((j =? x) && (i =? y)) with ((i =? y) && (j =? x)) by apply andb_comm. set (e := existsb _ qs). 
    destruct (((i =? x) && (j =? y)) || ((i =? y) && (j =? x))) eqn:E; [rewrite orb_true_r|rewrite orb_false_r; reflexivity].
    assert (Ec : cnt (Nat.min x y) (Nat.max x y) = cnt i j). { apply orb_prop in E. destruct E as [E|E]; apply andb_prop in E; destruct E as [E1 E2]; apply Nat.eqb_eq in E1, E2; subst; f_equal; lia. }
    rewrite Ec. assert (N := cnt_nonneg i j). destruct (Z.ltb_spec 0 (cnt i j)); [reflexivity|]. destruct e; [reflexivity|lia].
  - rewrite (Hd x y). destruct (existsb _ qs); [|left; reflexivity]. right. destruct (le_lt_dec x y); [left|right]; (split; [assumption|]); [rewrite Nat.min_l, Nat.max_r by lia|rewrite Nat.min_r, Nat.max_l by lia]; reflexivity.
Qed.

Lemma pairs_in n i j : In (i, j) (pairs n) <-> i <= j < n.
Proof.
  unfold pairs. rewrite in_flat_map. split.
  - intros (x & Ix & I). apply in_seq in Ix. apply in_map_iff in I. destruct I as (y & E & Iy). injection E as -> ->. apply in_seq in Iy. lia.
  - intros H. exists i. split; [apply in_seq; lia|]. apply in_map_iff. exists j. split; [reflexivity|apply in_seq; lia].
Qed.

Lemma loop_result n x y : x < n -> y < n -> fold_left (visit A B C rcut cols fracs) (pairs n) (fun _ _ => 0%Z) x y = cnt (Nat.min x y) (Nat.max x y).
Proof.
  intros Hx Hy. assert (F : Forall (fun p => fst p <= snd p) (pairs n)). { apply Forall_forall. intros [i j] I. apply pairs_in in I. cbn. lia. }
  rewrite (fold_visit (pairs n) F [] (fun _ _ => 0%Z)) by (intros ? ?; reflexivity). cbn [app].
  replace (existsb _ (pairs n)) with true; [reflexivity|]. symmetry. apply existsb_exists. exists (Nat.min x y, Nat.max x y). split; [apply pairs_in; lia|]. cbn [fst snd].
  destruct (le_lt_dec x y); [rewrite Nat.min_l, Nat.max_r by lia|rewrite Nat.min_r, Nat.max_l by lia]; rewrite !Nat.eqb_refl; [reflexivity|apply orb_true_r].
Qed.
End Loop.

Section Results.
Variables (A B C : vec) (rcut : R).

Lemma matrix_entries s0 s1 s2 fracs cols : factor_accepted s0 && factor_accepted s1 && factor_accepted s2 = true -> columns s0 s1 s2 = Ok cols ->
  exists m, get_adjacent_matrix A B C rcut s0 s1 s2 fracs = Ok m /\ square m (length fracs) /\
  forall i j f g, i <= j -> nth_error fracs i = Some f -> nth_error fracs j = Some g ->
    let v := (count_near A B C rcut cols f g - if (i =? j)%nat then 1 else 0)%Z in entry m i j v /\ entry m j i v.
Proof.
  intros Ha Ec. unfold get_adjacent_matrix. rewrite Ha, Ec. cbn [bind]. eexists. split; [reflexivity|]. set (n := length fracs). split.
  - split; [rewrite map_length, seq_length; reflexivity|]. apply Forall_forall. intros r I. apply in_map_iff in I. destruct I as (i & <- & _). rewrite map_length, seq_length. reflexivity.
  - intros i j f g Hij Hf Hg. assert (Hi : i < n) by (apply nth_error_Some; congruence). assert (Hj : j < n) by (apply nth_error_Some; congruence).
    assert (Q : forall k, k < n -> nth_error (seq 0 n) k = Some k). { intros k Hk. rewrite (nth_error_nth' _ 0) by (rewrite seq_length; exact Hk). rewrite seq_nth by exact Hk. reflexivity. }
    split; eexists; (split; [rewrite nth_error_map, Q by assumption; reflexivity|]); rewrite nth_error_map, Q by assumption; cbn [option_map]; f_equal; rewrite loop_result by assumption.
    + rewrite Nat.min_l, Nat.max_r by lia. rewrite Hf, Hg. reflexivity.
    + rewrite Nat.min_r, Nat.max_l by lia. rewrite Hf, Hg. rewrite (Nat.eqb_sym j i). reflexivity.
Qed.

Lemma accepted_pos s : factor_accepted s = true <-> (0 < s)%Z.
Proof. unfold factor_accepted. rewrite andb_true_iff, negb_true_iff, Z.ltb_lt, Z.eqb_neq. lia. Qed.
Lemma accepted3 s0 s1 s2 : (0 < s0)%Z -> (0 < s1)%Z -> (0 < s2)%Z -> factor_accepted s0 && factor_accepted s1 && factor_accepted s2 = true.
Proof. intros. rewrite !andb_true_iff, !accepted_pos. auto. Qed.

Definition neg (t : Z * Z * Z) : Z * Z * Z := let '(a, b, c) := t in (- a, - b, - c)%Z.
Lemma neg_neg t : neg (neg t) = t.
Proof. destruct t as [[a b] c]. cbn. rewrite !Z.opp_involutive. reflexivity. Qed.

Lemma near_within f g t : near A B C rcut f g t = true <-> within_cutoff A B C rcut f g (neg t).
Proof.
  destruct t as [[a b] c]. cbn [near neg within_cutoff]. set (v := comb _ _ _ _ _ _). set (w := dist2 _ _). assert (E : norm2 v = w).
  { unfold v, w. rewrite !opp_IZR. destruct A as [[? ?] ?], B as [[? ?] ?], C as [[? ?] ?], f as [[? ?] ?], g as [[? ?] ?]. vec_unfold. ring. }
  rewrite E. destruct (Rle_dec (sqrt w) rcut); split; intros; try assumption; try reflexivity; [discriminate|contradiction].
Qed.

Lemma within_sym f g t : within_cutoff A B C rcut f g t <-> within_cutoff A B C rcut g f (neg t).
Proof.
  destruct t as [[a b] c]. cbn [neg within_cutoff]. rewrite !opp_IZR. set (v := dist2 _ _). set (w := dist2 (vadd (comb A B C (vx f) _ _) _) _). assert (E : v = w).
  { unfold v, w. destruct A as [[? ?] ?], B as [[? ?] ?], C as [[? ?] ?], f as [[? ?] ?], g as [[? ?] ?]. vec_unfold. ring. }
  rewrite E. tauto.
Qed.

Lemma there_are_neg n (P Q : Z * Z * Z -> Prop) : (forall t, P t <-> Q (neg t)) -> there_are n P -> there_are n Q.
Proof.
  intros H (l & N & I & L). exists (map neg l). split; [apply FinFun.Injective_map_NoDup; [intros x y E; rewrite <- (neg_neg x), <- (neg_neg y), E; reflexivity|exact N]|]. split; [|rewrite map_length; exact L].
  intros t. rewrite in_map_iff. split.
  - intros (u & <- & Iu). apply H. apply I. exact Iu.
  - intros Hq. exists (neg t). split; [apply neg_neg|]. apply I. apply H. rewrite neg_neg. exact Hq.
Qed.
Lemma there_are_ext n (P Q : Z * Z * Z -> Prop) : (forall t, P t <-> Q t) -> there_are n P -> there_are n Q.
Proof. intros H (l & N & I & L). exists l. split; [exact N|]. split; [|exact L]. intros t. rewrite I. apply H. Qed.

Lemma box_neg s0 s1 s2 t : in_box s0 s1 s2 (neg t) <-> in_box s0 s1 s2 t.
Proof. destruct t as [[a b] c]. unfold in_box, neg. rewrite !Z.abs_opp. tauto. Qed.

Lemma count_there cols s0 s1 s2 f g : NoDup cols -> (forall t, In t cols <-> in_box s0 s1 s2 t) ->
  exists n, count_near A B C rcut cols f g = Z.of_nat n /\ there_are n (fun t => in_box s0 s1 s2 t /\ within_cutoff A B C rcut f g t).
Proof.
  intros N I. exists (length (filter (near A B C rcut f g) cols)). split; [reflexivity|].
  apply (there_are_neg _ (fun t => In t cols /\ near A B C rcut f g t = true)).
  - intros t. rewrite I, near_within. rewrite box_neg. tauto.
  - eexists. split; [apply NoDup_filter; exact N|]. split; [|reflexivity]. intros t. apply filter_In.
Qed.

Lemma adj_entry s0 s1 s2 fracs : positive_odd s0 -> positive_odd s1 -> positive_odd s2 ->
  exists m, get_adjacent_matrix A B C rcut s0 s1 s2 fracs = Ok m /\ square m (length fracs) /\
  forall i j f g, nth_error fracs i = Some f -> nth_error fracs j = Some g ->
    exists n, there_are n (fun t => in_box s0 s1 s2 t /\ within_cutoff A B C rcut f g t) /\ entry m i j (Z.of_nat n - if (i =? j)%nat then 1 else 0)%Z.
Proof.
  intros O0 O1 O2. destruct (columns_odd s0 s1 s2 O0 O1 O2) as (cols & Ec & N & I). destruct (matrix_entries s0 s1 s2 fracs cols (accepted3 _ _ _ (proj1 O0) (proj1 O1) (proj1 O2)) Ec) as (m & E & Sq & En).
  exists m. split; [exact E|]. split; [exact Sq|]. intros i j f g Hf Hg. destruct (le_lt_dec i j) as [L|L].
  - destruct (count_there cols s0 s1 s2 f g N I) as (n & Ecn & T). exists n. split; [exact T|]. rewrite <- Ecn. apply (En i j f g L Hf Hg).
  - destruct (count_there cols s0 s1 s2 g f N I) as (n & Ecn & T). exists n. split.
    + revert T. apply there_are_neg. intros t. rewrite box_neg, within_sym. tauto.
    + rewrite <- Ecn, (Nat.eqb_sym i j). apply (En j i g f ltac:(lia) Hg Hf).
Qed.

Lemma columns_cases s0 s1 s2 : (exists cols, columns s0 s1 s2 = Ok cols) \/ columns s0 s1 s2 = Err ValueError.
Proof. unfold columns. destruct (frac_shifts s0 s1 s2) as [|t [|u l]]; [|left; eexists; reflexivity|]; destruct (_ =? _); eauto. Qed.

Lemma entry_fun m i j v w : entry m i j v -> entry m i j w -> v = w.
Proof. intros (r & E & Ev) (r' & E' & Ew). congruence. Qed.
Lemma entry_range m n i j v : square m n -> entry m i j v -> i < n /\ j < n.
Proof. intros [L F] (r & E & Ev). split; [rewrite <- L; apply nth_error_Some; congruence|]. rewrite Forall_forall in F. rewrite <- (F r (nth_error_In _ _ E)). apply nth_error_Some. congruence. Qed.

Lemma adj_symmetric s0 s1 s2 fracs m : get_adjacent_matrix A B C rcut s0 s1 s2 fracs = Ok m -> square m (length fracs) /\ forall i j v, entry m i j v -> entry m j i v.
Proof.
  intros E. assert (E' := E). unfold get_adjacent_matrix in E'. destruct (factor_accepted s0 && factor_accepted s1 && factor_accepted s2) eqn:Ea; [|discriminate]. destruct (columns s0 s1 s2) as [cols|] eqn:Ec; [|discriminate]. clear E'.
  destruct (matrix_entries s0 s1 s2 fracs cols Ea Ec) as (m' & Em & Sq & En). rewrite E in Em. injection Em as <-. split; [exact Sq|]. intros i j v Hv. destruct (entry_range m _ i j v Sq Hv) as [Hi Hj].
  destruct (nth_error fracs i) as [f|] eqn:Ef; [|apply nth_error_None in Ef; lia]. destruct (nth_error fracs j) as [g|] eqn:Eg; [|apply nth_error_None in Eg; lia].
  destruct (le_lt_dec i j) as [L|L].
  - destruct (En i j f g L Ef Eg) as [H1 H2]. rewrite (entry_fun m i j _ _ Hv H1). exact H2.
  - destruct (En j i g f ltac:(lia) Eg Ef) as [H1 H2]. rewrite (entry_fun m i j _ _ Hv H2). exact H1.
Qed.

Lemma adj_even_small s0 s1 s2 fracs : (s0 = 1 \/ s0 = 2)%Z -> (s1 = 1 \/ s1 = 2)%Z -> (s2 = 1 \/ s2 = 2)%Z ->
  exists m, get_adjacent_matrix A B C rcut s0 s1 s2 fracs = Ok m /\ forall i j f g, nth_error fracs i = Some f -> nth_error fracs j = Some g ->
    (within_cutoff A B C rcut f g (0, 0, 0)%Z -> entry m i j (s0 * s1 * s2 - if (i =? j)%nat then 1 else 0)%Z) /\
    (~ within_cutoff A B C rcut f g (0, 0, 0)%Z -> entry m i j (if (i =? j)%nat then -1 else 0)%Z).
Proof.
  intros H0 H1 H2. destruct (matrix_entries s0 s1 s2 fracs _ (accepted3 s0 s1 s2 ltac:(lia) ltac:(lia) ltac:(lia)) (columns_small s0 s1 s2 H0 H1 H2)) as (m & E & _ & En).
  exists m. split; [exact E|].
  assert (Cn : forall f g, (within_cutoff A B C rcut f g (0, 0, 0)%Z -> count_near A B C rcut (repeat (0, 0, 0)%Z (Z.to_nat (s0 * s1 * s2))) f g = (s0 * s1 * s2)%Z) /\
    (~ within_cutoff A B C rcut f g (0, 0, 0)%Z -> count_near A B C rcut (repeat (0, 0, 0)%Z (Z.to_nat (s0 * s1 * s2))) f g = 0%Z)).
  { clear En E. intros f g. assert (Nw := near_within f g (0, 0, 0)%Z). change (neg (0, 0, 0)%Z) with (0, 0, 0)%Z in Nw. unfold count_near. split; intros Hw.
    - replace (filter _ _) with (repeat (0, 0, 0)%Z (Z.to_nat (s0 * s1 * s2))); [rewrite repeat_length, Z2Nat.id; [reflexivity|]; destruct H0 as [-> | ->], H1 as [-> | ->], H2 as [-> | ->]; lia|].
      induction (Z.to_nat (s0 * s1 * s2)) as [|k IH]; [reflexivity|]. cbn [repeat filter]. rewrite (proj2 Nw Hw), <- IH. reflexivity.
    - replace (filter _ _) with (@nil (Z * Z * Z)); [reflexivity|]. induction (Z.to_nat (s0 * s1 * s2)) as [|k IH]; [reflexivity|]. cbn [repeat filter]. destruct (near A B C rcut f g (0, 0, 0)%Z) eqn:En0; [exfalso; apply Hw, Nw; reflexivity|exact IH]. }
  assert (Ws : forall f g, within_cutoff A B C rcut f g (0, 0, 0)%Z <-> within_cutoff A B C rcut g f (0, 0, 0)%Z) by (intros f g; rewrite within_sym; change (neg (0, 0, 0)%Z) with (0, 0, 0)%Z; tauto).
  intros i j f g Hf Hg. destruct (le_lt_dec i j) as [L|L].
  - destruct (En i j f g L Hf Hg) as [X _]. split; intros Hw.
    + rewrite (proj1 (Cn f g) Hw) in X. exact X.
    + rewrite (proj2 (Cn f g) Hw) in X. destruct (i =? j); exact X.
  - destruct (En j i g f ltac:(lia) Hg Hf) as [_ X]. rewrite (Nat.eqb_sym j i) in X. split; intros Hw.
    + apply Ws in Hw. rewrite (proj1 (Cn g f) Hw) in X. exact X.
    + rewrite Ws in Hw. rewrite (proj2 (Cn g f) Hw) in X. destruct (i =? j); exact X.
Qed.

Lemma adj_even_large s0 s1 s2 fracs : (0 < s0)%Z -> (0 < s1)%Z -> (0 < s2)%Z -> (Z.Even s0 \/ Z.Even s1 \/ Z.Even s2) -> (3 <= s0 \/ 3 <= s1 \/ 3 <= s2)%Z ->
  get_adjacent_matrix A B C rcut s0 s1 s2 fracs = Err ValueError.
Proof. intros. unfold get_adjacent_matrix. rewrite accepted3, columns_even by assumption. reflexivity. Qed.

Lemma adj_nonpositive s0 s1 s2 fracs : (s0 <= 0 \/ s1 <= 0 \/ s2 <= 0)%Z -> get_adjacent_matrix A B C rcut s0 s1 s2 fracs = Err AssertionError.
Proof.
  intros H. unfold get_adjacent_matrix. destruct (factor_accepted s0 && factor_accepted s1 && factor_accepted s2) eqn:E; [|reflexivity]. rewrite !andb_true_iff, !accepted_pos in E. lia.
Qed.
End Results.

(** ** The infinite crystal *)
Lemma adj_crystal A B C rcut s0 s1 s2 fracs : det A B C <> 0%R -> positive_odd s0 -> positive_odd s1 -> positive_odd s2 -> (0 <= rcut)%R ->
  reaches rcut s0 A B C -> reaches rcut s1 B C A -> reaches rcut s2 C A B -> Forall unit_coords fracs ->
  exists m, get_adjacent_matrix A B C rcut s0 s1 s2 fracs = Ok m /\ forall i j f g, nth_error fracs i = Some f -> nth_error fracs j = Some g ->
    exists n, there_are n (fun t => within_cutoff A B C rcut f g t /\ (i = j -> t <> (0, 0, 0)%Z)) /\ entry m i j (Z.of_nat n).
Proof.
  intros Hd O0 O1 O2 Hr R0 R1 R2 Hu. destruct (adj_entry A B C rcut s0 s1 s2 fracs O0 O1 O2) as (m & E & _ & En). exists m. split; [exact E|]. intros i j f g Hf Hg.
  destruct (En i j f g Hf Hg) as (n & T & X). rewrite Forall_forall in Hu. assert (Uf := Hu f (nth_error_In _ _ Hf)). assert (Ug := Hu g (nth_error_In _ _ Hg)).
  assert (T' : there_are n (fun t => within_cutoff A B C rcut f g t)).
  { revert T. apply there_are_ext. intros [[a b] c]. split; [tauto|]. intros Hw. split; [|exact Hw]. unfold within_cutoff in Hw. rewrite <- vdist_norm2 in Hw.
    apply (all_images A B C Hd s0 s1 s2 rcut (comb A B C (vx f) (vy f) (vz f)) (comb A B C (vx g) (vy g) (vz g))); try assumption; [destruct Uf as (? & ? & ?)|destruct Ug as (? & ? & ?)]; do 3 eexists; eauto. }
  destruct (Nat.eqb_spec i j) as [Eij|Nij].
  - assert (f = g) by congruence. subst g. assert (W0 : within_cutoff A B C rcut f f (0, 0, 0)%Z). { unfold within_cutoff. replace (dist2 _ _) with 0%R; [rewrite sqrt_0; exact Hr|]. destruct A as [[? ?] ?], B as [[? ?] ?], C as [[? ?] ?], f as [[? ?] ?]. vec_unfold. ring. }
    destruct T' as (l & N & I & L). assert (I0 : In (0, 0, 0)%Z l) by (apply I; exact W0). apply in_split in I0. destruct I0 as (l1 & l2 & El). exists (length (l1 ++ l2)). split.
    + exists (l1 ++ l2). rewrite El in N. assert (N1 := NoDup_remove_1 _ _ _ N). assert (N2 := NoDup_remove_2 _ _ _ N). split; [exact N1|]. split; [|reflexivity]. intros t. rewrite <- I, El, !in_app_iff. cbn [In]. split.
      * intros It. split; [tauto|]. intros _ ->. apply N2. apply in_app_iff. exact It.
      * intros [[It|[<-|It]] Nz]; [tauto| |tauto]. exfalso. apply Nz; [exact Eij|reflexivity].
    + replace (Z.of_nat (length (l1 ++ l2))) with (Z.of_nat n - 1)%Z; [exact X|]. rewrite <- L, El, !app_length. cbn [length]. lia.
  - exists n. split; [|rewrite Z.sub_0_r in X; exact X]. revert T'. apply there_are_ext. intros t. tauto.
Qed.

Lemma adj_negative_cutoff A B C rcut s0 s1 s2 fracs : (rcut < 0)%R -> positive_odd s0 -> positive_odd s1 -> positive_odd s2 ->
  exists m, get_adjacent_matrix A B C rcut s0 s1 s2 fracs = Ok m /\ forall i j, i < length fracs -> j < length fracs -> entry m i j (if (i =? j)%nat then -1 else 0)%Z.
Proof.
  intros Hr O0 O1 O2. destruct (adj_entry A B C rcut s0 s1 s2 fracs O0 O1 O2) as (m & E & _ & En). exists m. split; [exact E|]. intros i j Hi Hj.
  destruct (nth_error fracs i) as [f|] eqn:Ef; [|apply nth_error_None in Ef; lia]. destruct (nth_error fracs j) as [g|] eqn:Eg; [|apply nth_error_None in Eg; lia].
  destruct (En i j f g Ef Eg) as (n & (l & N & I & L) & X). destruct l as [|[[a b] c] l]; [|exfalso].
  - cbn in L. subst n. destruct (i =? j); exact X.
  - destruct (proj1 (I (a, b, c)) (or_introl eq_refl)) as [_ W]. unfold within_cutoff in W. assert (P := sqrt_pos (dist2 (vadd (comb A B C (vx g) (vy g) (vz g)) (comb A B C (IZR a) (IZR b) (IZR c))) (comb A B C (vx f) (vy f) (vz f)))). lra.
Qed.
