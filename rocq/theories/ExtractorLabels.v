(** Which optional fields are extracted, and the virial of a single frame. *)
From Verif Require Import Text TextProofs MovementModel MovementProofs ExtractorModel ExtractorProofs ExtractorSpec ExtractorContent.

Lemma locate_nonempty c ls : locate_list c ls <> [] <-> exists l, In l ls /\ heads c l.
Proof.
  unfold locate_list. split.
  - intros H. destruct (locate_list_from 0 c ls) as [|j r] eqn:E; [destruct H; reflexivity|]. apply locate_some in E as (pre & h & post & -> & _ & Hh & _).
    exists h. split; [apply in_or_app; right; left; reflexivity|exact Hh].
  - intros (l & Il & Hl) E. apply locate_none in E. rewrite Forall_forall in E. exact (E l Il Hl).
Qed.

Section L.
Variable F : Type.
Variable pfloat pint : string -> result F.
Variable fzero : F.
Hypothesis float_errors : forall t e, pfloat t = Err e -> e = ValueError.

Lemma check_row pre head post e k : ac_lines e = pre ++ head :: post ->
  match nth_error post k with
  | None => virial_row_check e (length pre + S k) = Err IndexError
  | Some a => (mentions "STRESS" a /\ virial_row_check e (length pre + S k) = Ok tt) \/ (~ mentions "STRESS" a /\ virial_row_check e (length pre + S k) = Err AttributeError)
  end.
Proof.
  intros E. unfold virial_row_check. rewrite E. destruct (nth_error post k) as [a|] eqn:N.
  - rewrite (proj2 (rows_after pre head post k a) N). cbn [bind]. destruct (locate_list "STRESS" (split_ws a)) as [|j r] eqn:L.
    + right. split; [|reflexivity]. intros M. apply (proj2 (locate_nonempty _ _)) in M. destruct (M L).
    + left. split; [|reflexivity]. apply locate_nonempty. rewrite L. discriminate.
  - unfold get. rewrite nth_error_app2 by lia. replace (length pre + S k - length pre) with (S k) by lia. cbn [nth_error]. rewrite N. reflexivity.
Qed.

Lemma read_error e j err : virial_row_read F pfloat e j = Err err -> err = IndexError \/ err = ValueError.
Proof.
  assert (G : forall (A : Type) (l : list A) i x, get l i = Err x -> x = IndexError).
  { intros A l i x. unfold get. destruct (nth_error l i); congruence. }
  assert (W : forall l i x, bind (get l i) pfloat = Err x -> x = IndexError \/ x = ValueError).
  { intros l i x H. destruct (get l i) as [t|e0] eqn:E; cbn [bind] in H; [right; exact (float_errors _ _ H)|left]. assert (e0 = x) as -> by congruence. exact (G _ _ _ _ E). }
  unfold virial_row_read. destruct (get (ac_lines e) j) as [row|e0] eqn:E; cbn [bind].
  - generalize (last_n 3 (split_ws row)). intros ts. generalize [0; 1; 2]. intros ks. revert err. induction ks as [|k ks IH]; intros err H; cbn [mapM] in H; [discriminate|].
    destruct (bind (get ts k) pfloat) as [y|e0] eqn:Y; cbn [bind] in H.
    + destruct (mapM (fun k => bind (get ts k) pfloat) ks) as [ys|e1]; cbn [bind] in H; [discriminate|]. apply IH. congruence.
    + apply W in Y. assert (e0 = err) as -> by congruence. exact Y.
  - intros H. left. assert (e0 = err) as -> by congruence. exact (G _ _ _ _ E).
Qed.

Lemma virial_mark_text e v : mark_of (get_virial F pfloat e) = Ok v ->
  (v = true <-> exists a b c, three_after "LATTICE" (ac_lines e) a b c /\ mentions "STRESS" a /\ mentions "STRESS" b /\ mentions "STRESS" c).
Proof.
  intros H. unfold get_virial in H. destruct (locate_first "LATTICE" (ac_lines e)) as [i|e0] eqn:Li; cbn [bind] in H.
  2:{ exfalso. unfold locate_first, get in Li. destruct (nth_error _ 0) in Li; [discriminate|]. assert (e0 = IndexError) as -> by congruence. discriminate H. }
  apply first_ok in Li as (pre & head & post & E & -> & Hh & Hp). cbn [mapM] in H.
  assert (K0 := check_row pre head post e 0 E). assert (K1 := check_row pre head post e 1 E). assert (K2 := check_row pre head post e 2 E).
  replace (length pre + 1) with (length pre + S 0) in H by lia. replace (length pre + 2) with (length pre + S 1) in H by lia. replace (length pre + 3) with (length pre + S 2) in H by lia.
  assert (U : forall a b c, three_after "LATTICE" (ac_lines e) a b c -> exists post', post = a :: b :: c :: post').
  { intros a b c (pre' & head' & post' & E' & Hh' & Hp'). exists post'. assert (X : pre = pre' /\ head :: post = head' :: a :: b :: c :: post').
    { rewrite E in E'. clear -E' Hh Hh' Hp Hp'. revert pre' E' Hp'. induction pre as [|x pre IH]; intros [|x' pre'] E' Hp'; cbn in E'.
      - split; [reflexivity|exact E'].
      - exfalso. injection E' as -> _. inversion Hp'; subst. contradiction.
      - exfalso. injection E' as -> _. inversion Hp; subst. contradiction.
      - injection E' as -> E'. inversion Hp; inversion Hp'; subst. destruct (IH H2 pre' E' H6) as (-> & R). split; [reflexivity|exact R]. }
    destruct X as (_ & X). congruence. }
  assert (V : forall a b c, three_after "LATTICE" (ac_lines e) a b c -> nth_error post 0 = Some a /\ nth_error post 1 = Some b /\ nth_error post 2 = Some c).
  { intros a b c T. destruct (U _ _ _ T) as (post' & ->). auto. }
  destruct (nth_error post 0) as [a|] eqn:N0; [|rewrite K0 in H; discriminate H].
  destruct K0 as [(M0 & K0)|(M0 & K0)]; rewrite K0 in H; cbn [bind] in H.
  2:{ cbn [mark_of] in H. split; [congruence|]. intros (a' & b' & c' & T & T0 & T1 & T2). destruct (V _ _ _ T) as (V0 & _ & _). assert (a' = a) as -> by congruence. contradiction. }
  destruct (nth_error post 1) as [b|] eqn:N1; [|rewrite K1 in H; discriminate H].
  destruct K1 as [(M1 & K1)|(M1 & K1)]; rewrite K1 in H; cbn [bind] in H.
  2:{ cbn [mark_of] in H. split; [congruence|]. intros (a' & b' & c' & T & T0 & T1 & T2). destruct (V _ _ _ T) as (_ & V1 & _). assert (b' = b) as -> by congruence. contradiction. }
  destruct (nth_error post 2) as [c|] eqn:N2; [|rewrite K2 in H; discriminate H].
  destruct K2 as [(M2 & K2)|(M2 & K2)]; rewrite K2 in H; cbn [bind] in H.
  2:{ cbn [mark_of] in H. split; [congruence|]. intros (a' & b' & c' & T & T0 & T1 & T2). destruct (V _ _ _ T) as (_ & _ & V2). assert (c' = c) as -> by congruence. contradiction. }
  assert (T : three_after "LATTICE" (ac_lines e) a b c).
  { destruct post as [|p0 [|p1 [|p2 post']]]; cbn in N0, N1, N2; try discriminate. exists pre, head, post'. repeat split; [rewrite E; congruence|exact Hh|exact Hp]. }
  split.
  - intros _. exists a, b, c. repeat split; assumption.
  - intros _.
    assert (R : forall k err, virial_row_read F pfloat e k = Err err -> mark_of (A := list F) (Err err) <> Ok v).
    { intros k err X. destruct (read_error _ _ _ X) as [-> | ->]; discriminate. }
    destruct (virial_row_read F pfloat e (length pre + S 0)) as [x0|e0] eqn:R0; cbn [bind] in H; [|destruct (R _ _ R0 H)].
    destruct (virial_row_read F pfloat e (length pre + S 1)) as [x1|e1] eqn:R1; cbn [bind] in H; [|destruct (R _ _ R1 H)].
    destruct (virial_row_read F pfloat e (length pre + S 2)) as [x2|e2] eqn:R2; cbn [bind] in H; [|destruct (R _ _ R2 H)].
    cbn [mark_of] in H. congruence.
Qed.

Lemma eatoms_mark_text e v : mark_of (get_eatoms F pfloat e) = Ok v ->
  (v = true <-> exists block xs, block_of "ATOMIC-ENERGY, " (ac_num_atoms e) (ac_lines e) block /\ Forall2 (fun l y => reads pfloat (words 1 2 l) [y]) block xs).
Proof.
  intros H. destruct (get_eatoms F pfloat e) as [xs|er] eqn:G.
  - cbn [mark_of] in H. split; [intros _|congruence]. unfold get_eatoms in G. unfold try_except in G.
    destruct (bind (locate_first "ATOMIC-ENERGY, " (ac_lines e)) (fun i => mapM (fun row => bind (get (split_ws row) 1) pfloat) (block_after e i))) as [ys|] eqn:B; [|discriminate G].
    apply bind_ok in B as (i & Li & M). exists (block_after e i), ys. split; [apply first_block; exact Li|]. apply mapM_rows in M. revert M. apply F2_imp.
    intros l y Hy. apply bind_ok in Hy as (t & Ht & Hy). unfold words. destruct (split_ws l) as [|a [|b r]]; unfold get in Ht; cbn in Ht; try discriminate. assert (b = t) as -> by congruence. constructor; [exact Hy|constructor].
  - split.
    + intros ->. destruct er; discriminate H.
    + intros (block & xs & B & R). rewrite (eatoms_text F pfloat e block xs B R) in G. discriminate G.
Qed.

(** The labels are decided by the first frame. *)
Lemma labels_first file x txt d : mve_open F pfloat file = Ok x -> get_frame_str (me_mv x) 0 = Ok txt -> search_num_atoms txt = Some d ->
  let n := N.to_nat (digits_to_N d) in let lines := split_on nl txt in
  (In "virial" (get_info_labels x) <-> exists a b c, three_after "LATTICE" lines a b c /\ mentions "STRESS" a /\ mentions "STRESS" b /\ mentions "STRESS" c) /\
  (In "etaoms" (get_info_labels x) <-> exists block xs, block_of "ATOMIC-ENERGY, " n lines block /\ Forall2 (fun l y => reads pfloat (words 1 2 l) [y]) block xs) /\
  exists o, get_info_labels x = ["box"; "types"; "coords"; "etot"; "fatoms"] ++ o /\ In o [[]; ["virial"]; ["etaoms"]; ["virial"; "etaoms"]].
Proof.
  intros O T D n lines. assert (Mm : magmoms_mark x = false) by (apply mve_open_inv in O; destruct O as (_ & Mm); exact Mm). unfold mve_open in O.
  apply bind_ok in O as (m & Om & O). apply bind_ok in O as (txt0 & T0 & O). apply bind_ok in O as (e & Oe & O). apply bind_ok in O as (v & Ov & O). apply bind_ok in O as (ea & Oa & O). apply bind_ok in O as (mm & _ & O).
  assert (X : x = {| me_mv := m; virial_mark := v; eatoms_mark := ea; magmoms_mark := mm |}) by congruence. rewrite X in Mm, T |- *. cbn [me_mv magmoms_mark] in Mm, T. subst mm.
  assert (txt0 = txt) as -> by congruence. unfold acstr_open in Oe. rewrite D in Oe. assert (Ee : e = {| ac_lines := lines; ac_num_atoms := n |}) by (unfold lines, n; congruence). rewrite Ee in *.
  apply virial_mark_text in Ov. apply eatoms_mark_text in Oa. cbn [ac_lines ac_num_atoms] in Ov, Oa. rewrite <- Ov, <- Oa. unfold get_info_labels. cbn [virial_mark eatoms_mark magmoms_mark].
  split; [|split].
  - destruct v, ea; cbn; intuition congruence.
  - destruct v, ea; cbn; intuition congruence.
  - destruct v, ea; cbn [app]; eexists; (split; [reflexivity|cbn; auto]).
Qed.
End L.

(** ** The virial of one frame *)
Section V.
Variable F : Type.
Variable pfloat : string -> result F.
Variable fzero : F.

Lemma last3_iff row xs : last3_row F pfloat row = Ok xs <-> last_numbers pfloat row xs.
Proof.
  unfold last3_row. rewrite (mapM_reads F pfloat). unfold last_numbers, last_n. split.
  - intros H. exists (firstn (length (split_ws row) - 3) (split_ws row)), (skipn (length (split_ws row) - 3) (split_ws row)). split; [symmetry; apply firstn_skipn|]. split; [exact H|].
    rewrite skipn_length. destruct (Nat.le_gt_cases 3 (length (split_ws row))); [left; lia|right]. split; [lia|]. replace (length (split_ws row) - 3) with 0 by lia. reflexivity.
  - intros (front & ts & E & R & L). rewrite E, app_length. destruct L as [L|(L & ->)].
    + rewrite L. replace (length front + 3 - 3) with (length front) by lia. rewrite skipn_app, skipn_all, Nat.sub_diag. exact R.
    + cbn [length app]. replace (0 + length ts - 3) with 0 by lia. exact R.
Qed.

Lemma vstack_iff (x y z : list F) v : vstack3 F x y z = Ok v <-> length x = length y /\ length y = length z /\ v = [x; y; z].
Proof.
  unfold vstack3. destruct (Nat.eqb_spec (length x) (length y)) as [A|A]; destruct (Nat.eqb_spec (length y) (length z)) as [B|B]; cbn [andb]; split; try discriminate; try (intros (? & ? & ->); congruence); try (intros (? & ? & ?); congruence).
  intros H. repeat split; [exact A|exact B|congruence].
Qed.

Lemma bulk_virial_iff txt v : bulk_virial_of_text F pfloat txt = Ok v <-> stress_of pfloat (split_on nl txt) v.
Proof.
  unfold bulk_virial_of_text. generalize (split_on nl txt). intros rows. unfold stress_of. change (get (locate_list "LATTICE VECTOR" rows) 0) with (locate_first "LATTICE VECTOR" rows). split.
  - intros H. apply bind_ok in H as (i & Li & H). apply first_ok in Li as (pre & head & post & E & -> & Hh & Hp). apply bind_ok in H as (a & Ha & H).
    rewrite E in Ha. replace (length pre + 1) with (length pre + S 0) in Ha by lia. apply rows_after in Ha. destruct post as [|a' post]; [discriminate Ha|]. cbn in Ha. assert (a' = a) as -> by congruence.
    exists pre, head, a, post. split; [exact E|]. split; [exact Hh|]. split; [exact Hp|]. destruct (Nat.eqb_spec (length (split_ws a)) 3) as [L|L].
    + left. split; [exact L|congruence].
    + right. split; [exact L|]. apply bind_ok in H as (x & Hx & H). apply bind_ok in H as (b & Hb & H). apply bind_ok in H as (y & Hy & H). apply bind_ok in H as (c & Hc & H). apply bind_ok in H as (z & Hz & H). apply bind_ok in H as (w & Hw & H).
      rewrite E in Hb, Hc. replace (length pre + 2) with (length pre + S 1) in Hb by lia. replace (length pre + 3) with (length pre + S 2) in Hc by lia. apply rows_after in Hb, Hc.
      destruct post as [|b' [|c' rest]]; cbn in Hb, Hc; try discriminate. assert (b' = b) as -> by congruence. assert (c' = c) as -> by congruence.
      apply vstack_iff in Hw as (W1 & W2 & ->). exists b, c, rest, x, y, z. repeat split; try (apply last3_iff; assumption); try assumption. congruence.
  - intros (pre & head & a & post & E & Hh & Hp & H).
    assert (Li : locate_first "LATTICE VECTOR" rows = Ok (length pre)) by (apply first_ok; exists pre, head, (a :: post); repeat split; assumption). rewrite Li. cbn [bind].
    assert (G : forall k l, nth_error (a :: post) k = Some l -> get rows (length pre + S k) = Ok l) by (intros k l Hk; rewrite E; apply rows_after; exact Hk).
    replace (length pre + 1) with (length pre + S 0) by lia. replace (length pre + 2) with (length pre + S 1) by lia. replace (length pre + 3) with (length pre + S 2) by lia.
    rewrite (G 0 a eq_refl). cbn [bind]. destruct H as [(L & ->)|(L & b & c & rest & x & y & z & -> & Hx & Hy & Hz & L1 & L2 & ->)].
    + apply Nat.eqb_eq in L. rewrite L. reflexivity.
    + apply Nat.eqb_neq in L. rewrite L. apply last3_iff in Hx, Hy, Hz. rewrite Hx. cbn [bind]. rewrite (G 1 b eq_refl). cbn [bind]. rewrite Hy. cbn [bind]. rewrite (G 2 c eq_refl). cbn [bind]. rewrite Hz. cbn [bind].
      assert (W : vstack3 F x y z = Ok [x; y; z]) by (apply vstack_iff; repeat split; assumption). rewrite W. reflexivity.
Qed.

Lemma frame_virial_same txt : frame_virial_of_text F pfloat fzero txt = bind (bulk_virial_of_text F pfloat txt) (fun v => Ok match v with Some t => t | None => repeat (repeat fzero 3) 3 end).
Proof.
  unfold frame_virial_of_text, bulk_virial_of_text. destruct (get (locate_list "LATTICE VECTOR" (split_on nl txt)) 0) as [i|]; [|reflexivity]. cbn [bind].
  destruct (get (split_on nl txt) (i + 1)) as [a|]; [|reflexivity]. cbn [bind]. destruct (length (split_ws a) =? 3); [reflexivity|].
  destruct (last3_row F pfloat a) as [x|]; [|reflexivity]. cbn [bind]. destruct (get (split_on nl txt) (i + 2)) as [b|]; [|reflexivity]. cbn [bind].
  destruct (last3_row F pfloat b) as [y|]; [|reflexivity]. cbn [bind]. destruct (get (split_on nl txt) (i + 3)) as [c|]; [|reflexivity]. cbn [bind].
  destruct (last3_row F pfloat c) as [z|]; [|reflexivity]. cbn [bind]. destruct (vstack3 F x y z); reflexivity.
Qed.

Lemma frame_virial_text m k txt v : get_frame_str m k = Ok txt ->
  (get_frame_virial F pfloat fzero m k = Ok v <-> exists o, stress_of pfloat (split_on nl txt) o /\ v = match o with Some t => t | None => repeat (repeat fzero 3) 3 end).
Proof.
  intros T. unfold get_frame_virial. rewrite T. cbn [bind]. rewrite frame_virial_same. split.
  - intros H. apply bind_ok in H as (o & Ho & H). exists o. split; [apply bulk_virial_iff; exact Ho|congruence].
  - intros (o & Ho & ->). apply bulk_virial_iff in Ho. rewrite Ho. reflexivity.
Qed.

(** The rows have numbers, but not equally many. *)
Lemma uneven_rows m k txt pre head a b c post x y z : get_frame_str m k = Ok txt ->
  split_on nl txt = pre ++ head :: a :: b :: c :: post -> heads "LATTICE VECTOR" head -> Forall (fun l => ~ heads "LATTICE VECTOR" l) pre ->
  length (split_ws a) <> 3 -> last_numbers pfloat a x -> last_numbers pfloat b y -> last_numbers pfloat c z -> (length x <> length y \/ length y <> length z) ->
  get_frame_virial F pfloat fzero m k = Err ValueError.
Proof.
  intros T E Hh Hp L Hx Hy Hz U. unfold get_frame_virial. rewrite T. cbn [bind]. unfold frame_virial_of_text. rewrite E.
  change (get (locate_list "LATTICE VECTOR" (pre ++ head :: a :: b :: c :: post)) 0) with (locate_first "LATTICE VECTOR" (pre ++ head :: a :: b :: c :: post)).
  assert (Li : locate_first "LATTICE VECTOR" (pre ++ head :: a :: b :: c :: post) = Ok (length pre)) by (apply first_ok; exists pre, head, (a :: b :: c :: post); repeat split; assumption). rewrite Li. cbn [bind].
  assert (G : forall k l, nth_error (a :: b :: c :: post) k = Some l -> get (pre ++ head :: a :: b :: c :: post) (length pre + S k) = Ok l) by (intros k0 l Hk; apply rows_after; exact Hk).
  replace (length pre + 1) with (length pre + S 0) by lia. replace (length pre + 2) with (length pre + S 1) by lia. replace (length pre + 3) with (length pre + S 2) by lia.
  rewrite (G 0 a eq_refl). cbn [bind]. apply Nat.eqb_neq in L. rewrite L. apply last3_iff in Hx, Hy, Hz. rewrite Hx. cbn [bind]. rewrite (G 1 b eq_refl). cbn [bind]. rewrite Hy. cbn [bind]. rewrite (G 2 c eq_refl). cbn [bind]. rewrite Hz. cbn [bind].
  unfold vstack3. destruct (Nat.eqb_spec (length x) (length y)) as [A|A]; destruct (Nat.eqb_spec (length y) (length z)) as [B|B]; try reflexivity. destruct U; contradiction.
Qed.
End V.
