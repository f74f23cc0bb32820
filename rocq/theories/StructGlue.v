(** Instances of the structure lemmas at real positions. *)
From Verif Require Import Vec StructModel StructSpec StructProofs SiteIndexModel SiteIndexSpec SiteIndexProofs.
From Coq Require Import Sorting.Permutation Sorting.Sorted.
Open Scope nat_scope.

Lemma translate_R_zero A B C p : translate_R A B C (0, 0, 0)%Z p = p.
Proof. unfold translate_R. apply vec_eq; vec_unfold; lra. Qed.

Lemma translate_R_double A B C t p :
  translate_R A B C (double t) p = let '(i, j, k) := t in vadd p (comb A B C (IZR i) (IZR j) (IZR k)).
Proof.
  destruct t as [[i j] k]. unfold translate_R, double. rewrite !mult_IZR. f_equal. f_equal; lra.
Qed.

Lemma supercell_images (A B C : vec) s0 s1 s2 (sites : list (Z * vec)) :
  positive_odd s0 -> positive_odd s1 -> positive_odd s2 ->
  exists shifts rest,
    shifts = (0, 0, 0)%Z :: rest /\ NoDup shifts /\ (forall t, In t shifts <-> in_box s0 s1 s2 t) /\
    make_supercell_ vec (translate_R A B C) s0 s1 s2 false sites =
    Ok (flat_map (fun t => let '(i, j, k) := t in
          map (fun s => (fst s, vadd (snd s) (comb A B C (IZR i) (IZR j) (IZR k)))) sites) shifts).
Proof.
  intros H0 H1 H2. destruct (shifts_box s0 s1 s2 H0 H1 H2) as [shifts [E [Hnd [Hhd Hin]]]].
  destruct shifts as [|t rest]; [discriminate|]. cbn in Hhd. injection Hhd as ->.
  exists ((0, 0, 0)%Z :: rest), rest. split; [reflexivity|]. split; [exact Hnd|]. split; [exact Hin|].
  rewrite (supercell_sites vec (translate_R A B C) s0 s1 s2 sites H0 H1 H2), E. f_equal.
  rewrite flat_map_concat_map, map_map, <- flat_map_concat_map.
  apply flat_map_ext. intros t. destruct t as [[i j] k].
  apply map_ext. intros s. rewrite translate_R_double. reflexivity.
Qed.

Lemma supercell_originals (A B C : vec) s0 s1 s2 (sites out : list (Z * vec)) :
  positive_odd s0 -> positive_odd s1 -> positive_odd s2 ->
  make_supercell_ vec (translate_R A B C) s0 s1 s2 false sites = Ok out ->
  exists rest, out = sites ++ rest.
Proof.
  intros H0 H1 H2 H. rewrite supercell_sites in H by assumption. apply (f_equal (fun r => match r with Ok l => l | Err _ => [] end)) in H. cbv beta iota in H. subst out.
  rewrite shift_coeffs_eq. cbn [flat_map]. eexists. f_equal.
  rewrite <- (map_id sites) at 2. apply map_ext. intros [z p]. cbn [fst snd]. rewrite translate_R_zero. reflexivity.
Qed.

Lemma supercell_length (A B C : vec) s0 s1 s2 mark (sites out : list (Z * vec)) : sites <> [] ->
  make_supercell_ vec (translate_R A B C) s0 s1 s2 mark sites = Ok out ->
  Z.of_nat (length out) = (Z.of_nat (length sites) * s0 * s1 * s2)%Z.
Proof.
  intros Hne H. assert (Hodd : positive_odd s0 /\ positive_odd s1 /\ positive_odd s2).
  { destruct (proj1 (supercell_success_iff vec (translate_R A B C) s0 s1 s2 mark sites) (ex_intro _ out H)); [contradiction|assumption]. }
  destruct Hodd as [[P0 _] [[P1 _] [P2 _]]].
  unfold make_supercell_ in H. destruct (Nat.eqb_spec (length (list_mul (list_mul (list_mul (map fst sites) s0) s1) s2))
    (length (flat_map (fun sh => map (fun s : Z * vec => translate_R A B C sh (snd s)) sites) (shift_coeffs s0 s1 s2)))) as [E|E]; [|discriminate].
  apply (f_equal (fun r => match r with Ok l => l | Err _ => [] end)) in H. cbv beta iota in H. subst out.
  assert (L : forall l : list (Z * vec), length (if mark then reformat_elements_ vec l else l) = length l).
  { intros l. destruct mark; [|reflexivity]. symmetry. apply Permutation_length. apply sort_perm. }
  rewrite L, combine_length, <- E, Nat.min_id. rewrite !list_mul_length, map_length. lia.
Qed.

Lemma lo_refl {A} (l : list A) : leaves_out l l.
Proof. induction l; constructor; assumption. Qed.
Lemma lo_trans {A} (a b c : list A) : leaves_out a b -> leaves_out b c -> leaves_out a c.
Proof.
  intros H H2. revert a H. induction H2 as [|x l l' H2 IH|x l l' H2 IH]; intros a H; [exact H| |constructor; auto].
  inversion H; subst; constructor; auto.
Qed.
Lemma lo_length {A} (a b : list A) : leaves_out a b -> length a <= length b /\ (length a = length b -> a = b).
Proof.
  induction 1 as [|x l l' H [IH1 IH2]|x l l' H [IH1 IH2]]; cbn; [split; [lia|reflexivity]| |split; lia].
  split; [lia|]. intros E. f_equal. apply IH2. lia.
Qed.
Lemma lo_keep_from (P : Type) idx i (l : list (Z * P)) : leaves_out (keep_from P i idx l) l.
Proof. revert i; induction l as [|s r IH]; intros i; cbn [keep_from]; [constructor|]. destruct (existsb _ _); constructor; apply IH. Qed.
Lemma lo_fold (P : Type) idx (ks : list nat) (l : list (Z * P)) : leaves_out (fold_left (fun cur _ => remove_sites P idx cur) ks l) l.
Proof.
  revert l; induction ks as [|k ks IH]; intros l; cbn; [apply lo_refl|]. eapply lo_trans; [apply IH|apply lo_keep_from].
Qed.
Lemma vacancies_only_lose (is_vac : Z -> bool) (P : Type) (sites : list (Z * P)) :
  leaves_out (remove_vacanies P is_vac sites) (filter (fun s => negb (is_vac (fst s))) sites) /\
  (remove_vacanies P is_vac sites <> filter (fun s => negb (is_vac (fst s))) sites ->
   length (remove_vacanies P is_vac sites) < length (filter (fun s => negb (is_vac (fst s))) sites)).
Proof.
  assert (H : leaves_out (remove_vacanies P is_vac sites) (filter (fun s => negb (is_vac (fst s))) sites)).
  { unfold remove_vacanies. pose proof (remove_once P is_vac sites) as H1.
    set (idx := vacancy_indices P is_vac 0 sites) in *. clearbody idx.
    replace (filter (fun s => negb (is_vac (fst s))) sites) with (remove_sites P idx sites) by exact H1.
    destruct idx as [|k ks]; cbn [fold_left].
    - unfold remove_sites. rewrite keep_none by (intros j []). apply lo_refl.
    - apply lo_fold. }
  split; [exact H|]. intros N. destruct (lo_length _ _ H) as [L1 L2].
  apply Nat.le_neq. split; [exact L1|]. intros E. apply N, L2, E.
Qed.

Lemma vacancies_correct_iff (is_vac : Z -> bool) (P : Type) (sites : list (Z * P)) :
  remove_vacanies P is_vac sites = filter (fun s => negb (is_vac (fst s))) sites <->
  length (filter (fun s => is_vac (fst s)) sites) <= 1 \/
  (forall j s, nth_error sites j = Some s -> is_vac (fst s) = true ->
     length (filter (fun s => negb (is_vac (fst s))) sites) <= j).
Proof.
  rewrite remove_vacanies_correct_iff.
  assert (H : forall (l : list (Z * P)) i j, In j (vacancy_indices P is_vac i l) <->
    i <= j /\ exists s, nth_error l (j - i) = Some s /\ is_vac (fst s) = true).
  { induction l as [|s r IH]; intros i j; cbn [vacancy_indices].
    - split; [intros []|]. intros [_ [s [Hs _]]]. destruct (j - i); discriminate.
    - destruct (is_vac (fst s)) eqn:V.
      + cbn [In]. rewrite IH. split.
        * intros [<-|[Hl [s' Hs']]]; [split; [lia|]; rewrite Nat.sub_diag; exists s; auto|].
          split; [lia|]. exists s'. replace (j - i) with (S (j - S i)) by lia. exact Hs'.
        * intros [Hl [s' [Hs' Hv]]]. destruct (Nat.eq_dec i j); [left; assumption|]. right. split; [lia|].
          exists s'. replace (j - i) with (S (j - S i)) in Hs' by lia. auto.
      + rewrite IH. split.
        * intros [Hl [s' Hs']]. split; [lia|]. exists s'. replace (j - i) with (S (j - S i)) by lia. exact Hs'.
        * intros [Hl [s' [Hs' Hv]]]. destruct (Nat.eq_dec i j).
          -- subst. rewrite Nat.sub_diag in Hs'. injection Hs' as <-. congruence.
          -- split; [lia|]. exists s'. replace (j - i) with (S (j - S i)) in Hs' by lia. auto. }
  apply or_iff_compat_l. split.
  - intros Hj j s Hs Hv. apply Hj. apply H. split; [lia|]. exists s. rewrite Nat.sub_0_r. auto.
  - intros Hj j Hin. apply H in Hin as [_ [s [Hs Hv]]]. rewrite Nat.sub_0_r in Hs. eapply Hj; eassumption.
Qed.

Lemma natoms_spec (P : Type) (sites : list (Z * P)) :
  exists keys, get_natoms P None sites = length sites :: map (fun z => count z (map fst sites)) keys /\
    NoDup keys /\ (forall z, In z keys <-> In z (map fst sites)) /\
    StronglySorted (fun a b => exists i j, first_at (map fst sites) a i /\ first_at (map fst sites) b j /\ i < j) keys /\
    Forall (fun z => 0 < count z (map fst sites)) keys /\
    fold_right plus 0 (map (fun z => count z (map fst sites)) keys) = length sites.
Proof.
  exists (first_occurrences [] (map fst sites)). split; [reflexivity|]. split; [apply first_occ_nodup|].
  assert (Hin : forall z, In z (first_occurrences [] (map fst sites)) <-> In z (map fst sites)) by (intros z; rewrite first_occ_in; cbn; tauto).
  split; [exact Hin|]. split; [apply (first_occ_order (map fst sites) [] []); tauto|]. split.
  - apply Forall_forall. intros z Hz. apply count_pos. apply Hin. exact Hz.
  - transitivity (length (map fst sites)); [|apply map_length]. apply (sum_counts _ (map fst sites)); [apply first_occ_nodup|]. intros z. apply Hin.
Qed.

Lemma natoms_order_spec (P : Type) (sites : list (Z * P)) k ks :
  exists counts, get_natoms P (Some (k :: ks)) sites = length sites :: counts /\
    Forall2 (fun z n => n = length (filter (fun s => (fst s =? z)%Z) sites)) (k :: ks) counts.
Proof.
  exists (map (fun z => count z (map fst sites)) (k :: ks)). split; [reflexivity|]. generalize (k :: ks) as l. intros l. induction l as [|z r IH]; [constructor|]. cbn [map]. constructor; [|exact IH].
  unfold count. clear. induction sites as [|s t IH]; [reflexivity|]. cbn. rewrite (Z.eqb_sym z). destruct (fst s =? z)%Z; cbn; congruence.
Qed.

Lemma rounding_exists : exists rnd : R -> Z, forall x, (Rabs (x - IZR (rnd x)) <= 1 / 2)%R.
Proof.
  exists (fun x => (up (x - 1 / 2))%Z). intros x. destruct (archimed (x - 1 / 2)) as [H1 H2].
  apply Rabs_le. lra.
Qed.
