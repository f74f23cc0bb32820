From Verif Require Import Vec NbModel NbSpec StructProofs TextProofs NbListProofs NbSearchProofs NbGeomProofs.
Open Scope Z_scope.

Lemma scaling1_spec rcut w d : (0 < rcut)%R -> (0 < d)%R ->
  0 < scaling1 rcut w d /\ Z.Odd (scaling1 rcut w d) /\
  forall t, fst (scale_range (scaling1 rcut w d)) <= t <= snd (scale_range (scaling1 rcut w d)) <->
    if w then - ceilZ (rcut / d) <= t <= ceilZ (rcut / d) else t = 0.
Proof.
  intros Hr Hd. assert (Hn : 0 <= ceilZ (rcut / d)) by (apply ceilZ_nonneg, Rlt_le, Rdiv_lt_0_compat; assumption).
  assert (P : 0 < scaling1 rcut w d) by (unfold scaling1; destruct w; lia).
  assert (O : Z.Odd (scaling1 rcut w d)) by (unfold scaling1; destruct w; [exists (ceilZ (rcut / d)); lia|exists 0; lia]).
  split; [exact P|]. split; [exact O|]. destruct (scale_range_spec _ P) as [L [_ [S _]]]. specialize (S O).
  intros t. unfold scaling1 in *. destruct w; lia.
Qed.

Lemma neighbor_lists_unfold rcut sizes w0 w1 w2 c : neighbor_lists rcut sizes (w0, w1, w2) c =
  let d := interplanar c in
  let s0 := scaling1 rcut w0 (vx d) in let s1 := scaling1 rcut w1 (vy d) in let s2 := scaling1 rcut w2 (vz d) in
  bind (make_supercell s0 s1 s2 c) (fun sup =>
  bind (mapM (fun i =>
    bind (arr_get (coords sup) (Z.of_nat i + prim_cell_idx s0 s1 s2 * num_atoms c)) (fun centre =>
    search rcut (make_grid sizes (w0, w1, w2) sup) (coords sup) centre)) (seq 0 (length (coords c)))) (fun lists =>
  Ok (sup, lists))).
Proof. reflexivity. Qed.

Lemma shift_lattice c t x : shift_by (bA c) (bB c) (bC c) t x = vadd x (lattice_vec c t).
Proof. destruct t as [[i j] k]. reflexivity. Qed.

Lemma vadd_lattice0 c x : vadd x (lattice_vec c (0, 0, 0)) = x.
Proof. unfold lattice_vec. generalize (bA c) (bB c) (bC c). intros A B C. apply vec_eq; vec_ring. Qed.

(** Atom [m] of the supercell. *)
Lemma copies_nth c ts m p : nth_error (copies c ts) m = Some p ->
  exists t x, (0 < length (coords c))%nat /\ nth_error ts (m / length (coords c)) = Some t /\
    nth_error (coords c) (m mod length (coords c)) = Some x /\ p = vadd x (lattice_vec c t).
Proof.
  intros H. unfold copies in H. apply (flat_map_nth_inv _ (length (coords c))) in H; [|intros; apply map_length].
  destruct H as [t [Hn [Ht Hx]]]. rewrite nth_error_map in Hx.
  destruct (nth_error (coords c) (m mod length (coords c))) as [x|] eqn:E; [|discriminate].
  exists t, x. split; [exact Hn|]. split; [exact Ht|]. split; [reflexivity|].
  injection Hx as <-. apply shift_lattice.
Qed.

Lemma copies_get c ts q j t x : nth_error ts q = Some t -> nth_error (coords c) j = Some x ->
  nth_error (copies c ts) (q * length (coords c) + j) = Some (vadd x (lattice_vec c t)).
Proof.
  intros Ht Hx. assert (j < length (coords c))%nat by (apply nth_error_Some; congruence). unfold copies.
  rewrite (flat_map_nth _ (length (coords c)) ts q j t) by (try assumption; intros; apply map_length).
  rewrite nth_error_map, Hx. cbn [option_map]. rewrite shift_lattice. reflexivity.
Qed.

Lemma numbers_get (ns : list Z) (ts : list (Z * Z * Z)) m t : (0 < length ns)%nat -> nth_error ts (m / length ns) = Some t ->
  nth_error (flat_map (fun _ => ns) ts) m = nth_error ns (m mod length ns).
Proof.
  intros Hn Ht. rewrite (Nat.div_mod m (length ns)) at 1 by lia. rewrite Nat.mul_comm.
  rewrite (flat_map_nth (fun _ => ns) (length ns) ts (m / length ns) (m mod length ns) t); [reflexivity|reflexivity|exact Ht|].
  apply Nat.mod_upper_bound. lia.
Qed.

Lemma owned_coords c s0 s1 s2 i x : 0 < s0 -> 0 < s1 -> 0 < s2 -> Z.Odd s0 -> Z.Odd s1 -> Z.Odd s2 ->
  nth_error (coords c) i = Some x ->
  arr_get (copies c (shifts3 s0 s1 s2)) (prim_cell_idx s0 s1 s2 * num_atoms c + Z.of_nat i) = Ok x.
Proof.
  intros P0 P1 P2 O0 O1 O2 Hx. destruct (prim_cell_is_zero s0 s1 s2 P0 P1 P2 O0 O1 O2) as [Q0 Q].
  apply (copies_get c _ _ _ _ _ Q) in Hx. rewrite vadd_lattice0 in Hx.
  apply arr_get_nth. unfold num_atoms.
  assert (0 <= prim_cell_idx s0 s1 s2 * Z.of_nat (length (coords c))) by (apply Z.mul_nonneg_nonneg; lia).
  split; [lia|]. rewrite Z2Nat.inj_add, Z2Nat.inj_mul, !Nat2Z.id by lia. exact Hx.
Qed.

Lemma mapM_ok_all {A B} (f : A -> result B) (g : A -> B) l : (forall a, In a l -> f a = Ok (g a)) -> mapM f l = Ok (map g l).
Proof.
  induction l as [|a r IH]; intros H; [reflexivity|]. cbn [mapM map]. rewrite (H a) by (left; reflexivity). cbn [bind].
  rewrite IH by (intros; apply H; right; assumption). reflexivity.
Qed.

(** * The planes *)
Lemma interplanar_pos c : det (bA c) (bB c) (bC c) <> 0%R ->
  (0 < vx (interplanar c))%R /\ (0 < vy (interplanar c))%R /\ (0 < vz (interplanar c))%R.
Proof.
  intros H. unfold interplanar. cbn [vx vy vz fst snd].
  assert (E1 : dot (bB c) (cross (bA c) (bC c)) = (- det (bA c) (bB c) (bC c))%R) by (generalize (bA c) (bB c) (bC c); intros; vec_ring).
  assert (E2 : dot (bC c) (cross (bA c) (bB c)) = det (bA c) (bB c) (bC c)) by (generalize (bA c) (bB c) (bC c); intros; vec_ring).
  split; [|split]; apply plane_dist_pos.
  - exact H.
  - rewrite E1. lra.
  - rewrite E2. exact H.
Qed.

Lemma image_in_range rcut c xi xj t : (0 < rcut)%R -> det (bA c) (bB c) (bC c) <> 0%R -> wrapped_point c xi -> wrapped_point c xj ->
  (dist2 (vadd xj (lattice_vec c t)) xi < rcut * rcut)%R ->
  let '(i, j, k) := t in let d := interplanar c in
  - ceilZ (rcut / vx d) <= i <= ceilZ (rcut / vx d) /\
  - ceilZ (rcut / vy d) <= j <= ceilZ (rcut / vy d) /\
  - ceilZ (rcut / vz d) <= k <= ceilZ (rcut / vz d).
Proof.
  intros Hr Hdet [f0 [f1 [f2 [F0 [F1 [F2 Ei]]]]]] [h0 [h1 [h2 [H0 [H1 [H2 Ej]]]]]] Hd. destruct t as [[i j] k].
  destruct (interplanar_pos c Hdet) as [D0 [D1 D2]].
  assert (E : vsub (vadd xj (lattice_vec c (i, j, k))) xi = comb (bA c) (bB c) (bC c) (h0 + IZR i - f0) (h1 + IZR j - f1) (h2 + IZR k - f2)).
  { rewrite Ei, Ej. unfold lattice_vec. generalize (bA c) (bB c) (bC c). intros A B C. clear. apply vec_eq; vec_ring. }
  unfold dist2 in Hd. rewrite E in Hd. clear E.
  set (r0 := (h0 + IZR i - f0)%R) in *. set (r1 := (h1 + IZR j - f1)%R) in *. set (r2 := (h2 + IZR k - f2)%R) in *.
  cbv zeta.
  assert (B0 : (Rabs r0 < rcut / vx (interplanar c))%R).
  { apply frac_bound with (v := comb (bA c) (bB c) (bC c) r0 r1 r2); [exact Hr|exact Hdet| |exact Hd].
    clear. clearbody r0 r1 r2. generalize (bA c) (bB c) (bC c). intros. vec_ring. }
  assert (B1 : (Rabs r1 < rcut / vy (interplanar c))%R).
  { apply frac_bound with (v := comb (bA c) (bB c) (bC c) r0 r1 r2); [exact Hr| | |exact Hd].
    - intros E. apply Hdet. revert E. generalize (bA c) (bB c) (bC c). intros A B C E.
      transitivity (- dot B (cross A C))%R; [vec_ring|lra].
    - clear. clearbody r0 r1 r2. generalize (bA c) (bB c) (bC c). intros. vec_ring. }
  assert (B2 : (Rabs r2 < rcut / vz (interplanar c))%R).
  { apply frac_bound with (v := comb (bA c) (bB c) (bC c) r0 r1 r2); [exact Hr| | |exact Hd].
    - intros E. apply Hdet. revert E. generalize (bA c) (bB c) (bC c). intros A B C E.
      transitivity (dot C (cross A B))%R; [vec_ring|lra].
    - clear. clearbody r0 r1 r2. generalize (bA c) (bB c) (bC c). intros. vec_ring. }
  split; [|split].
  - apply (image_bound rcut (vx (interplanar c)) h0 f0 i); assumption.
  - apply (image_bound rcut (vy (interplanar c)) h1 f1 j); assumption.
  - apply (image_bound rcut (vz (interplanar c)) h2 f2 k); assumption.
Qed.

(** * The whole search *)
Lemma allowed_range rcut w0 w1 w2 c t : (0 < rcut)%R -> det (bA c) (bB c) (bC c) <> 0%R ->
  In t (shifts3 (scaling1 rcut w0 (vx (interplanar c))) (scaling1 rcut w1 (vy (interplanar c))) (scaling1 rcut w2 (vz (interplanar c)))) ->
  allowed (w0, w1, w2) t.
Proof.
  intros Hr Hdet. destruct (interplanar_pos c Hdet) as [D0 [D1 D2]]. destruct t as [[i j] k]. rewrite shifts3_in.
  destruct (scaling1_spec rcut w0 _ Hr D0) as [_ [_ ->]]. destruct (scaling1_spec rcut w1 _ Hr D1) as [_ [_ ->]].
  destruct (scaling1_spec rcut w2 _ Hr D2) as [_ [_ ->]]. intros [H0 [H1 H2]].
  cbn [allowed]. split; [intros ->; exact H0|]. split; [intros ->; exact H1|intros ->; exact H2].
Qed.

Lemma in_range_shift rcut w0 w1 w2 c t : (0 < rcut)%R -> det (bA c) (bB c) (bC c) <> 0%R -> allowed (w0, w1, w2) t ->
  (let '(i, j, k) := t in let d := interplanar c in
  - ceilZ (rcut / vx d) <= i <= ceilZ (rcut / vx d) /\
  - ceilZ (rcut / vy d) <= j <= ceilZ (rcut / vy d) /\
  - ceilZ (rcut / vz d) <= k <= ceilZ (rcut / vz d)) ->
  In t (shifts3 (scaling1 rcut w0 (vx (interplanar c))) (scaling1 rcut w1 (vy (interplanar c))) (scaling1 rcut w2 (vz (interplanar c)))).
Proof.
  intros Hr Hdet. destruct (interplanar_pos c Hdet) as [D0 [D1 D2]]. destruct t as [[i j] k]. rewrite shifts3_in.
  destruct (scaling1_spec rcut w0 _ Hr D0) as [_ [_ ->]]. destruct (scaling1_spec rcut w1 _ Hr D1) as [_ [_ ->]].
  destruct (scaling1_spec rcut w2 _ Hr D2) as [_ [_ ->]]. cbn [allowed]. intros [A0 [A1 A2]] [H0 [H1 H2]].
  split; [destruct w0; auto|]. split; [destruct w1; auto|destruct w2; auto].
Qed.

(** Everything at once. *)
Lemma neighbor_lists_spec rcut sizes pbc c : (0 < rcut)%R -> positive3 sizes -> proper c -> wrapped c ->
  (forall sup, (let '(s0, s1, s2) := scalings rcut pbc c in make_supercell s0 s1 s2 c) = Ok sup -> box_fits sup sizes) ->
  exists sup lists, neighbor_lists rcut sizes pbc c = Ok (sup, lists) /\ length lists = length (coords c) /\
    (let '(s0, s1, s2) := scalings rcut pbc c in make_supercell s0 s1 s2 c) = Ok sup /\
    all_in_box (make_grid sizes pbc sup) (coords sup) /\
    forall i xi, nth_error (coords c) i = Some xi ->
      exists l, nth_error lists i = Some l /\ In xi (coords sup) /\
        search rcut (make_grid sizes pbc sup) (coords sup) xi = Ok l /\
        (forall m, In m l -> 0 <= m /\ (Z.to_nat m < length (coords sup))%nat /\
           exists j t, (Z.to_nat m mod length (coords c))%nat = j /\ is_neighbour rcut pbc c i j t /\
           (exists xj, nth_error (coords c) j = Some xj /\ nth_error (coords sup) (Z.to_nat m) = Some (vadd xj (lattice_vec c t))) /\
           nth_error (numbers sup) (Z.to_nat m) = nth_error (numbers c) j) /\
        (forall j t xj, is_neighbour rcut pbc c i j t -> nth_error (coords c) j = Some xj ->
           exists m, In m l /\ 0 <= m /\ (Z.to_nat m mod length (coords c))%nat = j /\
             nth_error (coords sup) (Z.to_nat m) = Some (vadd xj (lattice_vec c t))).
Proof.
  intros Hr Hs [Hnum Hdet] Hw Hfit. destruct pbc as [[w0 w1] w2]. cbn [scalings] in *.
  rewrite neighbor_lists_unfold. cbv zeta.
  destruct (interplanar_pos c Hdet) as [D0 [D1 D2]].
  destruct (scaling1_spec rcut w0 _ Hr D0) as [P0 [O0 _]]. destruct (scaling1_spec rcut w1 _ Hr D1) as [P1 [O1 _]]. destruct (scaling1_spec rcut w2 _ Hr D2) as [P2 [O2 _]].
  pose proof (allowed_range rcut w0 w1 w2 c) as HA. pose proof (in_range_shift rcut w0 w1 w2 c) as HB.
  set (s0 := scaling1 rcut w0 _) in *. set (s1 := scaling1 rcut w1 _) in *. set (s2 := scaling1 rcut w2 _) in *.
  pose proof (make_supercell_ok s0 s1 s2 c P0 P1 P2 Hnum) as HSup.
  match type of HSup with _ = Ok ?X => set (sup := X) in * end.
  assert (Csup : coords sup = copies c (shifts3 s0 s1 s2)) by reflexivity.
  assert (Nsup : numbers sup = flat_map (fun _ => numbers c) (shifts3 s0 s1 s2)) by reflexivity.
  clearbody sup. rewrite HSup. cbn [bind].
  specialize (Hfit sup HSup).
  assert (Hbox : all_in_box (make_grid sizes (w0, w1, w2) sup) (coords sup)).
  { apply Forall_forall. intros p Hp. apply box_point_in; [exact Hs|exact Hfit|]. eapply supercell_box_point; [| | | | |exact HSup|exact Hp]; assumption. }
  assert (Hsz : sizes_pos (g_size (make_grid sizes (w0, w1, w2) sup))) by exact Hs.
  (* the search from a primitive atom *)
  pose (res := fun i => match nth_error (coords c) i with
    | Some xi => match search rcut (make_grid sizes (w0, w1, w2) sup) (coords sup) xi with Ok l => l | Err _ => [] end
    | None => [] end).
  assert (Hget : forall i xi, nth_error (coords c) i = Some xi ->
    arr_get (coords sup) (Z.of_nat i + prim_cell_idx s0 s1 s2 * num_atoms c) = Ok xi).
  { intros i xi Hx. rewrite Csup, Z.add_comm. apply owned_coords; assumption. }
  rewrite (mapM_ok_all _ res).
  2:{ intros i Hi. apply in_seq in Hi. destruct (nth_error (coords c) i) as [xi|] eqn:Ex; [|apply nth_error_None in Ex; lia].
      rewrite (Hget i xi Ex). cbn [bind]. unfold res. rewrite Ex.
      destruct (search_exact rcut _ (coords sup) xi Hr Hsz Hbox) as [l [-> _]]. reflexivity. }
  cbn [bind]. eexists. eexists. split; [reflexivity|]. split; [rewrite map_length, seq_length; reflexivity|].
  split; [reflexivity|]. split; [exact Hbox|].
  intros i xi Hx. destruct (search_exact rcut _ (coords sup) xi Hr Hsz Hbox) as [l [HS HI]].
  exists l. split.
  { assert (Hi : (i < length (coords c))%nat) by (apply nth_error_Some; congruence).
    rewrite nth_error_map, (nth_error_nth' _ 0%nat) by (rewrite seq_length; exact Hi). cbn [option_map]. rewrite seq_nth by exact Hi.
    cbn [Nat.add]. unfold res. rewrite Hx, HS. reflexivity. }
  split; [eapply arr_get_In, (Hget i xi Hx)|]. split; [exact HS|].
  assert (Wi : wrapped_point c xi). { unfold wrapped in Hw. rewrite Forall_forall in Hw. apply Hw. eapply nth_error_In, Hx. }
  split.
  - intros m Hm. apply HI in Hm as [q [Hq Hd]]. apply arr_get_nth in Hq as [Hm0 Hq].
    split; [exact Hm0|]. split; [apply nth_error_Some; congruence|].
    pose proof Hq as Hq'. rewrite Csup in Hq'. apply copies_nth in Hq' as [t [xj [Hn [Ht [Hj Eq]]]]].
    exists (Z.to_nat m mod length (coords c))%nat, t. split; [reflexivity|]. split.
    + exists xi, xj. split; [exact Hx|]. split; [exact Hj|]. split; [apply HA; [exact Hr|exact Hdet|eapply nth_error_In, Ht]|].
      rewrite <- Eq. exact Hd.
    + split; [exists xj; split; [exact Hj|rewrite Hq; congruence]|]. rewrite Nsup, <- Hnum. rewrite <- Hnum in Ht, Hn. eapply numbers_get; [exact Hn|exact Ht].
  - intros j t xj [xi' [xj' [E1 [E2 [At Hd]]]]] Hj. rewrite Hx in E1. injection E1 as <-. rewrite Hj in E2. injection E2 as <-.
    assert (Wj : wrapped_point c xj). { unfold wrapped in Hw. rewrite Forall_forall in Hw. apply Hw. eapply nth_error_In, Hj. }
    pose proof (image_in_range rcut c xi xj t Hr Hdet Wi Wj (proj2 Hd)) as HR.
    pose proof (HB t Hr Hdet At HR) as Hin. apply In_nth_error in Hin as [q Hq].
    pose proof (copies_get c _ _ _ _ _ Hq Hj) as HC. rewrite <- Csup in HC.
    assert (Hjl : (j < length (coords c))%nat) by (apply nth_error_Some; congruence).
    exists (Z.of_nat (q * length (coords c) + j)). rewrite Nat2Z.id. split.
    + apply HI. exists (vadd xj (lattice_vec c t)). split; [|exact Hd]. apply arr_get_nth. rewrite Nat2Z.id. split; [lia|exact HC].
    + split; [lia|]. split; [|exact HC]. rewrite Nat.add_comm, Nat.mod_add by lia. apply Nat.mod_small. exact Hjl.
Qed.
