From Verif Require Import Vec NbModel NbSpec NbMlffModel NbMlffSpec StructProofs TextProofs NbListProofs NbSearchProofs NbGeomProofs NbProofs NbDupProofs NbMlffProofs.
Open Scope Z_scope.

Lemma faces_fit_scaled rcut sizes pbc c : (0 < rcut)%R -> proper c -> faces_positive c ->
  forall sup, (let '(s0, s1, s2) := scalings rcut pbc c in make_supercell s0 s1 s2 c) = Ok sup -> box_fits sup sizes.
Proof.
  intros Hr [Hnum Hdet] Hf sup H'. destruct pbc as [[w0 w1] w2]. cbn [scalings] in H'.
  destruct (interplanar_pos c Hdet) as [D0 [D1 D2]].
  destruct (scaling1_spec rcut w0 _ Hr D0) as [P0 _]. destruct (scaling1_spec rcut w1 _ Hr D1) as [P1 _]. destruct (scaling1_spec rcut w2 _ Hr D2) as [P2 _].
  eapply faces_fit; [exact P0|exact P1|exact P2|exact Hnum|exact Hf|exact H'].
Qed.

Lemma centre_get rcut pbc c sup i x : (0 < rcut)%R -> proper c ->
  (let '(s0, s1, s2) := scalings rcut pbc c in make_supercell s0 s1 s2 c) = Ok sup ->
  nth_error (coords c) i = Some x ->
  arr_get (coords sup) (Z.of_nat i + prim_index rcut pbc c * num_atoms c) = Ok x.
Proof.
  intros Hr [Hnum Hdet] H Hx. destruct pbc as [[w0 w1] w2]. unfold prim_index. cbn [scalings] in *.
  destruct (interplanar_pos c Hdet) as [D0 [D1 D2]].
  destruct (scaling1_spec rcut w0 _ Hr D0) as [P0 [O0 _]]. destruct (scaling1_spec rcut w1 _ Hr D1) as [P1 [O1 _]]. destruct (scaling1_spec rcut w2 _ Hr D2) as [P2 [O2 _]].
  rewrite make_supercell_ok in H by assumption.
  apply (f_equal (fun r => match r with Ok l => l | Err _ => sup end)) in H. cbv beta iota in H. subst sup. cbn [coords].
  rewrite Z.add_comm. apply owned_coords; assumption.
Qed.

Lemma combine_seq_in {A} (l : list A) k : forall i x, In (i, x) (combine (seq k (length l)) l) -> (k <= i)%nat /\ nth_error l (i - k) = Some x.
Proof.
  revert k; induction l as [|y r IH]; intros k i x H; [destruct H|]. cbn [length seq combine] in H. destruct H as [H|H].
  - injection H as <- <-. split; [lia|]. rewrite Nat.sub_diag. reflexivity.
  - apply IH in H as [H1 H2]. split; [lia|]. replace (i - k)%nat with (S (i - S k)) by lia. exact H2.
Qed.

Lemma mapM_nth {A B} (f : A -> result B) l out i x : mapM f l = Ok out -> nth_error l i = Some x -> exists y, nth_error out i = Some y /\ f x = Ok y.
Proof. intros H Hx. apply mapM_forall2 in H. exact (Forall2_nth H i _ Hx). Qed.

Lemma combine_seq_nth {A} (l : list A) : forall k i x, nth_error l i = Some x -> nth_error (combine (seq k (length l)) l) i = Some ((k + i)%nat, x).
Proof.
  induction l as [|y r IH]; intros k i x H; [destruct i; discriminate|]. cbn [length seq combine]. destruct i as [|i]; cbn in *.
  - injection H as ->. rewrite Nat.add_0_r. reflexivity.
  - rewrite (IH (S k) i x H). f_equal. f_equal. lia.
Qed.

Lemma sorted_spec sort rcut sizes pbc c : sort_contract sort -> (0 < rcut)%R -> positive3 sizes -> proper c -> wrapped c -> faces_positive c ->
  exists sup lists sorted, neighbor_lists rcut sizes pbc c = Ok (sup, lists) /\
    neighbor_lists_sorted sort rcut sizes pbc c = Ok (sup, sorted) /\ length sorted = length lists /\
    forall i xi l, nth_error (coords c) i = Some xi -> nth_error lists i = Some l ->
      exists l', nth_error sorted i = Some l' /\ Permutation l l' /\ by_increasing_distance (coords sup) xi l'.
Proof.
  intros HC Hr Hs Hp Hw Hf.
  destruct (neighbor_lists_spec rcut sizes pbc c Hr Hs Hp Hw (faces_fit_scaled rcut sizes pbc c Hr Hp Hf)) as [sup [lists [E [Hlen [HS [Hb HI]]]]]].
  assert (Hrange : forall i xi l, nth_error (coords c) i = Some xi -> nth_error lists i = Some l -> Forall (fun m => 0 <= m < Z.of_nat (length (coords sup))) l).
  { intros i xi l Hi Hl. destruct (HI i xi Hi) as [l' [Hl' [_ [_ [Hsound _]]]]]. rewrite Hl in Hl'. injection Hl' as <-.
    apply Forall_forall. intros m Hm. destruct (Hsound m Hm) as [H1 [H2 _]]. lia. }
  unfold neighbor_lists_sorted. rewrite E. cbn [bind].
  assert (EP : prim_index rcut pbc c = let '(p0, p1, p2) := pbc in prim_cell_idx (scaling1 rcut p0 (vx (interplanar c))) (scaling1 rcut p1 (vy (interplanar c))) (scaling1 rcut p2 (vz (interplanar c)))).
  { destruct pbc as [[w0 w1] w2]. reflexivity. }
  set (F := fun il : nat * list Z => bind (arr_get (coords sup) (Z.of_nat (fst il) + prim_index rcut pbc c * num_atoms c)) (fun centre =>
    sort_list sort (coords sup) centre (snd il))).
  assert (HF : forall i xi l, nth_error (coords c) i = Some xi -> F (i, l) = sort_list sort (coords sup) xi l).
  { intros i xi l Hi. unfold F. cbn [fst snd]. rewrite (centre_get rcut pbc c sup i xi Hr Hp HS Hi). reflexivity. }
  destruct (mapM_total F (combine (seq 0 (length lists)) lists)) as [sorted Hsorted].
  { intros [i l] Hin. apply combine_seq_in in Hin as [_ Hl]. rewrite Nat.sub_0_r in Hl.
    assert (Hi : (i < length (coords c))%nat) by (rewrite <- Hlen; apply nth_error_Some; congruence).
    destruct (nth_error (coords c) i) as [xi|] eqn:Ex; [|apply nth_error_None in Ex; lia].
    rewrite (HF i xi l Ex). destruct (sort_list_spec sort (coords sup) xi l HC (Hrange i xi l Ex Hl)) as [l' [H' _]]. exists l'. exact H'. }
  exists sup, lists, sorted. split; [reflexivity|]. split.
  { destruct pbc as [[w0 w1] w2]. cbv zeta. cbn beta iota in EP. rewrite <- EP. fold F. rewrite Hsorted. reflexivity. }
  split. { apply mapM_forall2 in Hsorted. apply Forall2_length in Hsorted. rewrite <- Hsorted, combine_length, seq_length. lia. }
  intros i xi l Hi Hl. pose proof (combine_seq_nth lists 0 i l Hl) as Hc. cbn [Nat.add] in Hc.
  destruct (mapM_nth F _ _ _ _ Hsorted Hc) as [l' [Hl' E']]. rewrite (HF i xi l Hi) in E'.
  destruct (sort_list_spec sort (coords sup) xi l HC (Hrange i xi l Hi Hl)) as [l'' [E'' HH]].
  rewrite E'' in E'. injection E' as <-. exists l''. split; [exact Hl'|exact HH].
Qed.

(** * Reading the flat arrays *)
Lemma padded_rows_nth {A} (w : nat) (fill : A) rows i j row : Forall (fun r => (length r <= w)%nat) rows ->
  nth_error rows i = Some row -> (j < w)%nat ->
  nth_error (padded_rows w fill rows) (i * w + j) = Some (match nth_error row j with Some x => x | None => fill end).
Proof.
  intros Hf. revert i; induction Hf as [|r rows Hr Hf IH]; intros i Hi Hj; [destruct i; discriminate|].
  unfold padded_rows in *. cbn [map concat]. destruct i as [|i]; cbn in Hi.
  - injection Hi as ->. cbn [Nat.mul Nat.add]. rewrite nth_error_app1 by (rewrite app_length, repeat_length; lia).
    destruct (Nat.lt_ge_cases j (length row)) as [D|D].
    + rewrite nth_error_app1 by exact D. destruct (nth_error row j) eqn:E; [reflexivity|]. apply nth_error_None in E. lia.
    + rewrite nth_error_app2 by exact D. rewrite (proj2 (nth_error_None row j) D).
      destruct (nth_error (repeat fill (w - length row)) (j - length row)) eqn:E.
      * apply nth_error_In, repeat_spec in E. congruence.
      * apply nth_error_None in E. rewrite repeat_length in E. lia.
  - rewrite nth_error_app2 by (rewrite app_length, repeat_length; lia). rewrite app_length, repeat_length.
    replace (S i * w + j - (length r + (w - length r)))%nat with (i * w + j)%nat by lia. apply IH; assumption.
Qed.

Lemma concat_triples (f : Z -> vec) l j k : (k < 3)%nat ->
  nth_error (concat (map (fun m => triple (f m)) l)) (j * 3 + k) =
  match nth_error l j with Some m => nth_error (triple (f m)) k | None => None end.
Proof.
  intros Hk. destruct (nth_error l j) as [m|] eqn:E.
  - rewrite <- flat_map_concat_map. rewrite (flat_map_nth _ 3 l j k m); [reflexivity|reflexivity|exact E|exact Hk].
  - apply nth_error_None in E. apply nth_error_None.
    rewrite <- flat_map_concat_map, (flat_map_const_length _ 3) by reflexivity. lia.
Qed.

Lemma skipn_nth {A} (l : list A) k x : nth_error l k = Some x -> skipn k l = x :: skipn (S k) l.
Proof. revert k; induction l as [|y r IH]; intros [|k] H; cbn in H; try discriminate; [injection H as ->; reflexivity|]. cbn [skipn]. rewrite (IH k H). reflexivity. Qed.

Lemma write_rows_fit0 {A} (fill : A) w rows : Forall (fun r => (length r <= w)%nat) rows ->
  write_rows 0 (Z.of_nat w) rows (repeat fill (length rows * w)) = Ok (padded_rows w fill rows).
Proof. intros H. exact (write_rows_fit fill w rows H [] 0 eq_refl). Qed.

Lemma find_info_spec sup pidx lists (umax : nat) (cs : list vec) :
  length cs = length lists -> (length lists <= length (numbers sup))%nat ->
  (forall i x, nth_error cs i = Some x -> arr_get (coords sup) (Z.of_nat i + pidx * Z.of_nat (length lists)) = Ok x) ->
  Forall (Forall (fun m => 0 <= m < Z.of_nat (length (coords sup)))) lists ->
  Forall (fun l => (length l <= umax)%nat) lists ->
  exists info, find_info4mlff sup pidx lists (Z.of_nat umax) = Ok info /\
    i_ilist info = map Z.of_nat (seq 0 (length lists)) /\ i_nghost info = 0 /\
    i_numneigh info = map (fun l => Z.of_nat (length l)) lists /\
    i_types info = firstn (length lists) (numbers sup) /\
    length (i_firstneigh info) = (length lists * umax)%nat /\
    length (i_relative info) = (length lists * umax * 3)%nat /\
    forall i l x j, nth_error lists i = Some l -> nth_error cs i = Some x -> (j < umax)%nat ->
      match nth_error l j with
      | Some m => nth_error (i_firstneigh info) (i * umax + j) = Some (m mod Z.of_nat (length lists)) /\
                  exists q, arr_get (coords sup) m = Ok q /\ forall k, (k < 3)%nat ->
                    nth_error (i_relative info) ((i * umax + j) * 3 + k) = nth_error (triple (vsub q x)) k
      | None => nth_error (i_firstneigh info) (i * umax + j) = Some (-1) /\
                forall k, (k < 3)%nat -> nth_error (i_relative info) ((i * umax + j) * 3 + k) = Some 0%R
      end.
Proof.
  intros Hcs Hnum Hget Hrange Hfit. unfold find_info4mlff.
  set (n := length lists) in *.
  assert (Ht : mapM (fun ii => arr_get (numbers sup) (Z.of_nat ii)) (seq 0 n) = Ok (firstn n (numbers sup))).
  { clear - Hnum. revert Hnum. generalize (numbers sup). generalize n.
    assert (G : forall k n (l : list Z), (k + n <= length l)%nat -> mapM (fun ii => arr_get l (Z.of_nat ii)) (seq k n) = Ok (firstn n (skipn k l))).
    { intros k n0; revert k; induction n0 as [|n0 IH]; intros k l H; [reflexivity|]. cbn [seq mapM]. rewrite arr_get_nat. unfold get.
      destruct (nth_error l k) as [x|] eqn:E; [|apply nth_error_None in E; lia]. cbn [bind]. rewrite IH by lia. cbn [bind].
      rewrite (skipn_nth l k x E). reflexivity. }
    intros n0 l H. rewrite G by lia. reflexivity. }
  rewrite Ht. cbn [bind].
  assert (L1 : Z.to_nat (Z.of_nat n * Z.of_nat umax) = (length (map (map (fun m => Z.rem m (Z.of_nat n))) lists) * umax)%nat).
  { rewrite map_length. fold n. lia. }
  rewrite L1.
  assert (Fit1 : Forall (fun r => (length r <= umax)%nat) (map (map (fun m => Z.rem m (Z.of_nat n))) lists)).
  { apply Forall_map. eapply Forall_impl; [|exact Hfit]. cbn. intros l Hl. rewrite map_length. exact Hl. }
  rewrite (write_rows_fit0 (-1) umax _ Fit1). cbn [bind].
  pose (val := fun m => match arr_get (coords sup) m with Ok q => q | Err _ => (0, 0, 0)%R end).
  pose (cen := fun i => match nth_error cs i with Some x => x | None => (0, 0, 0)%R end).
  pose (row := fun il : nat * list Z => concat (map (fun m => triple (vsub (val m) (cen (fst il)))) (snd il))).
  rewrite (mapM_ok_all _ row).
  2:{ intros [i l] Hin. apply combine_seq_in in Hin as [_ Hl]. rewrite Nat.sub_0_r in Hl. cbn [fst snd].
      assert (Hi : (i < length cs)%nat) by (rewrite Hcs; apply nth_error_Some; congruence).
      destruct (nth_error cs i) as [x|] eqn:Ex; [|apply nth_error_None in Ex; lia].
      rewrite (Hget i x Ex). cbn [bind]. unfold row. cbn [fst snd]. unfold cen. rewrite Ex.
      rewrite (mapM_ok_all _ (fun m => triple (vsub (val m) x))); [reflexivity|].
      intros m Hm. rewrite Forall_forall in Hrange. specialize (Hrange l (nth_error_In _ _ Hl)). rewrite Forall_forall in Hrange.
      destruct (arr_get_ok (coords sup) m (Hrange m Hm)) as [q Hq]. unfold val. rewrite Hq. reflexivity. }
  cbn [bind].
  assert (Llen : length (map row (combine (seq 0 n) lists)) = n) by (rewrite map_length, combine_length, seq_length; unfold n; lia).
  assert (L2 : Z.to_nat (Z.of_nat n * Z.of_nat umax * 3) = (length (map row (combine (seq 0 n) lists)) * (umax * 3))%nat).
  { rewrite Llen. lia. }
  rewrite L2.
  assert (Fit2 : Forall (fun r => (length r <= umax * 3)%nat) (map row (combine (seq 0 n) lists))).
  { apply Forall_map. apply Forall_forall. intros [i l] Hin. apply combine_seq_in in Hin as [_ Hl]. rewrite Nat.sub_0_r in Hl.
    unfold row. cbn [fst snd]. rewrite <- flat_map_concat_map, (flat_map_const_length _ 3) by reflexivity.
    rewrite Forall_forall in Hfit. specialize (Hfit l (nth_error_In _ _ Hl)). lia. }
  replace (Z.of_nat umax * 3) with (Z.of_nat (umax * 3)) by lia.
  rewrite (write_rows_fit0 0%R (umax * 3) _ Fit2). cbn [bind].
  assert (PL : forall A (w : nat) (f : A) rows, Forall (fun r => (length r <= w)%nat) rows -> length (padded_rows w f rows) = (length rows * w)%nat).
  { clear. intros A w f rows. unfold padded_rows. induction 1 as [|r rows Hr Hf IH]; [reflexivity|]. cbn [map concat length].
    rewrite !app_length, repeat_length, IH. cbn. lia. }
  eexists. split; [reflexivity|]. cbn [i_ilist i_nghost i_numneigh i_types i_firstneigh i_relative].
  split; [reflexivity|]. split; [reflexivity|]. split; [reflexivity|]. split; [reflexivity|].
  split; [rewrite PL by exact Fit1; rewrite map_length; reflexivity|].
  split; [rewrite PL by exact Fit2; rewrite Llen; lia|].
  intros i l x j Hl Hx Hj.
  assert (R1 : nth_error (map (map (fun m => Z.rem m (Z.of_nat n))) lists) i = Some (map (fun m => Z.rem m (Z.of_nat n)) l)) by (rewrite nth_error_map, Hl; reflexivity).
  rewrite (padded_rows_nth umax (-1) _ i j _ Fit1 R1 Hj).
  assert (R2 : nth_error (map row (combine (seq 0 n) lists)) i = Some (row (i, l))).
  { rewrite nth_error_map. unfold n. rewrite (combine_seq_nth lists 0 i l Hl). reflexivity. }
  assert (Hrel : forall k, (k < 3)%nat -> nth_error (padded_rows (umax * 3) 0%R (map row (combine (seq 0 n) lists))) ((i * umax + j) * 3 + k)
     = Some (match nth_error (row (i, l)) (j * 3 + k) with Some x => x | None => 0%R end)).
  { intros k Hk. replace ((i * umax + j) * 3 + k)%nat with (i * (umax * 3) + (j * 3 + k))%nat by ring.
    apply padded_rows_nth; [exact Fit2|exact R2|lia]. }
  assert (Hrow : forall k, (k < 3)%nat -> nth_error (row (i, l)) (j * 3 + k) = match nth_error l j with Some m => nth_error (triple (vsub (val m) x)) k | None => None end).
  { intros k Hk. unfold row. cbn [fst snd]. unfold cen. rewrite Hx. rewrite (concat_triples (fun m => vsub (val m) x)) by exact Hk. reflexivity. }
  rewrite nth_error_map. destruct (nth_error l j) as [m|] eqn:Em; cbn [option_map].
  - rewrite Forall_forall in Hrange. specialize (Hrange l (nth_error_In _ _ Hl)). rewrite Forall_forall in Hrange.
    specialize (Hrange m (nth_error_In _ _ Em)).
    assert (Hn : (0 < n)%nat) by (unfold n; destruct lists; [destruct i; discriminate|cbn; lia]).
    split; [rewrite Z.rem_mod_nonneg by lia; reflexivity|].
    destruct (arr_get_ok (coords sup) m Hrange) as [q Hq]. exists q. split; [exact Hq|]. intros k Hk.
    rewrite (Hrel k Hk), (Hrow k Hk). unfold val. rewrite Hq.
    destruct k as [|[|[|k]]]; [reflexivity..|lia].
  - split; [reflexivity|]. intros k Hk. rewrite (Hrel k Hk), (Hrow k Hk). reflexivity.
Qed.

(** The whole chain, from the cell to the arrays. *)
Lemma arrays_spec rcut sizes pbc c (umax : nat) : (0 < rcut)%R -> positive3 sizes -> proper c -> wrapped c -> faces_positive c ->
  exists sup lists, neighbor_lists rcut sizes pbc c = Ok (sup, lists) /\ length lists = length (coords c) /\
    (max_num_neigh lists <= Z.of_nat umax ->
     exists info, find_info4mlff sup (prim_index rcut pbc c) lists (Z.of_nat umax) = Ok info /\
       i_types info = numbers c /\
       forall i l j, nth_error lists i = Some l -> (j < umax)%nat ->
         nth_error (i_numneigh info) i = Some (Z.of_nat (length l)) /\
         if (j <? length l)%nat
         then exists b t xi xb, is_neighbour rcut pbc c i b t /\ nth_error (coords c) i = Some xi /\ nth_error (coords c) b = Some xb /\
                nth_error (i_firstneigh info) (i * umax + j) = Some (Z.of_nat b) /\
                forall k, (k < 3)%nat -> nth_error (i_relative info) ((i * umax + j) * 3 + k) = nth_error (triple (vsub (vadd xb (lattice_vec c t)) xi)) k
         else nth_error (i_firstneigh info) (i * umax + j) = Some (-1) /\
              forall k, (k < 3)%nat -> nth_error (i_relative info) ((i * umax + j) * 3 + k) = Some 0%R).
Proof.
  intros Hr Hs Hp Hw Hf.
  destruct (neighbor_lists_spec rcut sizes pbc c Hr Hs Hp Hw (faces_fit_scaled rcut sizes pbc c Hr Hp Hf)) as [sup [lists [E [Hlen [HS [Hb HI]]]]]].
  exists sup, lists. split; [exact E|]. split; [exact Hlen|]. intros Hmax.
  assert (Hfst : firstn (length lists) (numbers sup) = numbers c /\ (length lists <= length (numbers sup))%nat).
  { pose proof Hp as [Hnum Hdet]. destruct pbc as [[w0 w1] w2]. cbn [scalings] in HS.
    destruct (interplanar_pos c Hdet) as [D0 [D1 D2]].
    destruct (scaling1_spec rcut w0 _ Hr D0) as [P0 _]. destruct (scaling1_spec rcut w1 _ Hr D1) as [P1 _]. destruct (scaling1_spec rcut w2 _ Hr D2) as [P2 _].
    rewrite make_supercell_ok in HS by assumption.
    pose proof (shifts3_length _ _ _ P0 P1 P2) as HL.
    apply (f_equal (fun r => match r with Ok l => numbers l | Err _ => [] end)) in HS. cbv beta iota in HS. cbn [numbers] in HS. rewrite <- HS.
    destruct (shifts3 _ _ _) as [|t ts].
    - exfalso. cbn in HL. set (s0 := scaling1 rcut w0 _) in *. set (s1 := scaling1 rcut w1 _) in *. set (s2 := scaling1 rcut w2 _) in *.
      assert (0 < s0 * s1 * s2) by (apply Z.mul_pos_pos; [apply Z.mul_pos_pos; assumption|assumption]). lia.
    - cbn [flat_map]. rewrite Hlen, <- Hnum. split; [|rewrite app_length; lia]. rewrite firstn_app, firstn_all, Nat.sub_diag. cbn [firstn]. apply app_nil_r. }
  destruct Hfst as [Hfst Hnl].
  destruct (find_info_spec sup (prim_index rcut pbc c) lists umax (coords c)) as [info [EI [_ [_ [INn [IT [_ [_ HSlot]]]]]]]].
  - symmetry. exact Hlen.
  - exact Hnl.
  - intros i x Hx. rewrite Hlen. exact (centre_get rcut pbc c sup i x Hr Hp HS Hx).
  - apply Forall_forall. intros l Hl. apply In_nth_error in Hl as [i Hi].
    assert (Hil : (i < length (coords c))%nat) by (rewrite <- Hlen; apply nth_error_Some; congruence).
    destruct (nth_error (coords c) i) as [xi|] eqn:Ex; [|apply nth_error_None in Ex; lia].
    destruct (HI i xi Ex) as [l' [Hl' [_ [_ [Hsound _]]]]]. rewrite Hi in Hl'. injection Hl' as <-.
    apply Forall_forall. intros m Hm. destruct (Hsound m Hm) as [H1 [H2 _]]. lia.
  - apply Forall_forall. intros l Hl. destruct (max_len_spec lists 0) as [_ [M _]]. specialize (M l Hl). unfold max_num_neigh in Hmax. lia.
  - exists info. split; [exact EI|]. split; [rewrite IT; exact Hfst|].
    intros i l j Hl Hj. split; [rewrite INn, nth_error_map, Hl; reflexivity|].
    assert (Hil : (i < length (coords c))%nat) by (rewrite <- Hlen; apply nth_error_Some; congruence).
    destruct (nth_error (coords c) i) as [xi|] eqn:Ex; [|apply nth_error_None in Ex; lia].
    specialize (HSlot i l xi j Hl Ex Hj).
    destruct (HI i xi Ex) as [l' [Hl' [_ [_ [Hsound _]]]]]. rewrite Hl in Hl'. injection Hl' as <-.
    destruct (Nat.ltb_spec j (length l)) as [D|D].
    + destruct (nth_error l j) as [m|] eqn:Em; [|apply nth_error_None in Em; lia].
      destruct HSlot as [S1 [q [Hq S2]]]. destruct (Hsound m (nth_error_In _ _ Em)) as [Hm0 [Hm1 [b [t [Eb [Hnb [[xb [Hxb Hsx]] _]]]]]]].
      exists b, t, xi, xb. split; [exact Hnb|]. split; [reflexivity|]. split; [exact Hxb|]. split.
      * rewrite S1. f_equal. rewrite <- Eb, Hlen. rewrite <- (Z2Nat.id m) at 1 by exact Hm0.
        rewrite <- Nat2Z.inj_mod. reflexivity.
      * apply arr_get_nth in Hq as [_ Hq]. rewrite Hq in Hsx. injection Hsx as ->. exact S2.
    + rewrite (proj2 (nth_error_None l j) D) in HSlot. exact HSlot.
Qed.

(** * Counting by type *)
Lemma typed_count_eq ns zn l zs : mapM (arr_get ns) l = Ok zs -> length (filter (Z.eqb zn) zs) = typed_count ns zn l.
Proof.
  intros H. apply mapM_forall2 in H. unfold typed_count. induction H as [|m z l zs Hm F IH]; [reflexivity|].
  cbn [filter]. apply arr_get_nth in Hm as [_ Hm]. rewrite Hm. rewrite (Z.eqb_sym z zn). destruct (zn =? z); cbn; rewrite IH; reflexivity.
Qed.

Lemma max_typed_spec ns zc zn lists : forall ii m, 0 <= ii -> ii + Z.of_nat (length lists) <= Z.of_nat (length ns) ->
  Forall (Forall (fun m => 0 <= m < Z.of_nat (length ns))) lists ->
  exists k, max_typed_from ns zc zn ii m lists = Ok k /\ m <= k /\
    (forall i l, nth_error lists i = Some l -> nth_error ns (Z.to_nat ii + i) = Some zc -> Z.of_nat (typed_count ns zn l) <= k) /\
    (k = m \/ exists i l, nth_error lists i = Some l /\ nth_error ns (Z.to_nat ii + i) = Some zc /\ k = Z.of_nat (typed_count ns zn l)).
Proof.
  induction lists as [|l r IH]; intros ii m Hi Hlen Hr; cbn [max_typed_from length] in *.
  - exists m. split; [reflexivity|]. split; [lia|]. split; [intros i l H; destruct i; discriminate|left; reflexivity].
  - apply Forall_cons_iff in Hr as [Hl Hr]. destruct (arr_get_ok ns ii) as [z Hz]; [lia|]. rewrite Hz. cbn [bind].
    apply arr_get_nth in Hz as [_ Hz].
    assert (Sh : forall i, (Z.to_nat ii + S i = Z.to_nat (ii + 1) + i)%nat) by lia.
    destruct (Z.eqb_spec z zc) as [->|Hne].
    + destruct (mapM_total (arr_get ns) l) as [zs Hzs]. { intros a Ha. rewrite Forall_forall in Hl. apply arr_get_ok, Hl, Ha. }
      rewrite Hzs. cbn [bind]. cbv zeta. rewrite (typed_count_eq ns zn l zs Hzs).
      destruct (IH (ii + 1) (if m <? Z.of_nat (typed_count ns zn l) then Z.of_nat (typed_count ns zn l) else m)) as [k [E [Hm [Ha Hb]]]]; [lia|lia|exact Hr|].
      exists k. split; [exact E|]. destruct (Z.ltb_spec m (Z.of_nat (typed_count ns zn l))) as [D|D].
      * split; [lia|]. split.
        -- intros [|i] l' Hl' Hz'; cbn in Hl'; [injection Hl' as <-; lia|]. rewrite Sh in Hz'. eapply Ha; eassumption.
        -- right. destruct Hb as [Hb|[i [l' [H1 [H2 H3]]]]].
           ++ exists 0%nat, l. rewrite Nat.add_0_r. auto.
           ++ exists (S i), l'. rewrite Sh. auto.
      * split; [lia|]. split.
        -- intros [|i] l' Hl' Hz'; cbn in Hl'; [injection Hl' as <-; lia|]. rewrite Sh in Hz'. eapply Ha; eassumption.
        -- destruct Hb as [Hb|[i [l' [H1 [H2 H3]]]]]; [left; exact Hb|]. right. exists (S i), l'. rewrite Sh. auto.
    + destruct (IH (ii + 1) m) as [k [E [Hm [Ha Hb]]]]; [lia|lia|exact Hr|]. exists k. split; [exact E|]. split; [exact Hm|]. split.
      * intros [|i] l' Hl' Hz'; cbn in Hl'; [injection Hl' as <-; rewrite Nat.add_0_r in Hz'; congruence|]. rewrite Sh in Hz'. eapply Ha; eassumption.
      * destruct Hb as [Hb|[i [l' [H1 [H2 H3]]]]]; [left; exact Hb|]. right. exists (S i), l'. rewrite Sh. auto.
Qed.
