(** The fields of a frame are what its text says. *)
From Verif Require Import Text TextProofs MovementModel MovementProofs ExtractorModel ExtractorProofs ExtractorSpec.

Lemma locate_none i c ls : locate_list_from i c ls = [] <-> Forall (fun l => ~ heads c l) ls.
Proof.
  revert i. induction ls as [|l ls IH]; intros i; [split; [constructor|reflexivity]|]. rewrite locate_list_cons. unfold heads at 1. destruct (contains c (upper l)) eqn:E.
  - split; [discriminate|]. intros H. inversion H; subst. now contradiction H2.
  - rewrite IH. split; intros H; [constructor; [unfold heads; congruence|exact H]|now inversion H].
Qed.
Lemma locate_some i c ls j rest : locate_list_from i c ls = j :: rest <->
  exists pre head post, ls = pre ++ head :: post /\ j = i + length pre /\ heads c head /\ Forall (fun l => ~ heads c l) pre /\ rest = locate_list_from (S j) c post.
Proof.
  revert i. induction ls as [|l ls IH]; intros i.
  - split; [discriminate|]. intros (pre & head & post & H & _). destruct pre; discriminate.
  - rewrite locate_list_cons. destruct (contains c (upper l)) eqn:E.
    + split.
      * intros [= <- <-]. exists [], l, ls. cbn. rewrite Nat.add_0_r. repeat split; auto.
      * intros (pre & head & post & H & -> & Hh & Hp & ->). destruct pre as [|p pre]; [|injection H as <- _; inversion Hp; subst; contradiction]. injection H as <- <-. cbn. rewrite Nat.add_0_r. reflexivity.
    + rewrite IH. split; intros (pre & head & post & H & J & Hh & Hp & R).
      * exists (l :: pre), head, post. rewrite H. cbn [length app]. split; [reflexivity|]. split; [lia|]. split; [exact Hh|]. split; [constructor; [unfold heads; congruence|exact Hp]|exact R].
      * destruct pre as [|p pre]; [injection H as <- _; unfold heads in Hh; congruence|]. injection H as <- ->. exists pre, head, post. cbn [length] in J. split; [reflexivity|]. split; [lia|]. split; [exact Hh|]. split; [now inversion Hp|exact R].
Qed.
Lemma first_ok c ls i : locate_first c ls = Ok i <-> exists pre head post, ls = pre ++ head :: post /\ i = length pre /\ heads c head /\ Forall (fun l => ~ heads c l) pre.
Proof.
  unfold locate_first, locate_list, get. split.
  - destruct (locate_list_from 0 c ls) as [|j r] eqn:E; [discriminate|]. intros [= <-]. apply locate_some in E. destruct E as (pre & head & post & H & J & Hh & Hp & _). exists pre, head, post. auto.
  - intros (pre & head & post & H & J & Hh & Hp). assert (E : locate_list_from 0 c ls = i :: locate_list_from (S i) c post) by (apply locate_some; exists pre, head, post; auto). rewrite E. reflexivity.
Qed.
Lemma slice_block (pre : list string) head post n : slice (length pre + 1) (length pre + n + 1) (pre ++ head :: post) = firstn n post.
Proof.
  unfold slice. replace (length pre + n + 1 - (length pre + 1)) with n by lia. f_equal. rewrite skipn_app, skipn_all2 by lia. replace (length pre + 1 - length pre) with 1 by lia. reflexivity.
Qed.
Lemma block_unique word n lines b b' : block_of word n lines b -> block_of word n lines b' -> b = b'.
Proof.
  intros (p & h & q & H1 & H2 & H3 & H4) (p' & h' & q' & K1 & K2 & K3 & K4). subst lines.
  assert (P : p = p' /\ h = h' /\ b ++ q = b' ++ q').
  { clear H4 K4. revert p' H3 K3 K1. induction p as [|x p IH]; intros [|x' p'] H3 K3 E; cbn in E; injection E as <- E.
    - auto.
    - inversion K3; subst. contradiction.
    - inversion H3; subst. contradiction.
    - inversion H3; inversion K3; subst. destruct (IH p') as (-> & -> & R); auto. }
  destruct P as (_ & _ & E). assert (X : forall a (r : list string), (length a = n \/ length a < n /\ r = []) -> a = firstn n (a ++ r)).
  { intros a r [L|[L ->]]; [rewrite firstn_app, <- L, firstn_all, Nat.sub_diag; cbn; now rewrite app_nil_r|rewrite app_nil_r, firstn_all2; [reflexivity|lia]]. }
  rewrite (X b q H4), (X b' q' K4), E. reflexivity.
Qed.
Lemma first_block c e i : locate_first c (ac_lines e) = Ok i -> block_of c (ac_num_atoms e) (ac_lines e) (block_after e i).
Proof.
  intros H. apply first_ok in H. destruct H as (pre & head & post & E & -> & Hh & Hp). exists pre, head, (skipn (ac_num_atoms e) post). unfold block_after. rewrite E, slice_block.
  repeat split; auto; [now rewrite firstn_skipn|]. rewrite firstn_length. destruct (Nat.le_gt_cases (ac_num_atoms e) (length post)); [left; lia|right]. split; [lia|apply skipn_all2; lia].
Qed.
Lemma block_first c e b : block_of c (ac_num_atoms e) (ac_lines e) b -> exists i, locate_first c (ac_lines e) = Ok i /\ block_after e i = b.
Proof.
  intros B. assert (B' := B). destruct B as (pre & head & post & E & Hh & Hp & _). exists (length pre). assert (H : locate_first c (ac_lines e) = Ok (length pre)) by (apply first_ok; exists pre, head, (b ++ post); auto). split; [exact H|]. apply first_block in H. eapply block_unique; eauto.
Qed.

Section C.
Variable F : Type.
Variable pfloat pint : string -> result F.
Variable fzero : F.

Lemma mapM_reads (p : string -> result F) l xs : mapM p l = Ok xs <-> reads p l xs.
Proof.
  unfold reads. revert xs. induction l as [|t l IH]; intros xs; cbn.
  - split; [intros [= <-]; constructor|intros H; inversion H; reflexivity].
  - split.
    + destruct (p t) eqn:E; [|discriminate]. cbn. destruct (mapM p l) eqn:M; [|discriminate]. cbn. intros [= <-]. constructor; [exact E|]. now apply IH.
    + intros H. inversion H; subst. rewrite H2. cbn. apply IH in H4. rewrite H4. reflexivity.
Qed.
Lemma mapM_rows {B C} (f : B -> result C) l xs : mapM f l = Ok xs <-> Forall2 (fun a x => f a = Ok x) l xs.
Proof.
  revert xs. induction l as [|t l IH]; intros xs; cbn.
  - split; [intros [= <-]; constructor|intros H; inversion H; reflexivity].
  - split.
    + destruct (f t) eqn:E; [|discriminate]. cbn. destruct (mapM f l) eqn:M; [|discriminate]. cbn. intros [= <-]. constructor; [exact E|]. now apply IH.
    + intros H. inversion H; subst. rewrite H2. cbn. apply IH in H4. rewrite H4. reflexivity.
Qed.
Lemma F2_imp {B C} (P Q : B -> C -> Prop) l m : (forall a b, P a b -> Q a b) -> Forall2 P l m -> Forall2 Q l m.
Proof. intros H. induction 1; constructor; auto. Qed.

Lemma types_text e types : get_types F pint e = Ok types <-> exists block, block_of "POSITION" (ac_num_atoms e) (ac_lines e) block /\ Forall2 (fun l z => reads pint (words 0 1 l) [z]) block types.
Proof.
  unfold get_types. split.
  - intros H. apply bind_ok in H as [i [Hi H]]. exists (block_after e i). split; [now apply first_block|]. apply mapM_rows in H. revert H. apply F2_imp. intros l z H. apply bind_ok in H as [t [Ht H]]. unfold words. cbn [skipn Nat.sub]. unfold get in Ht. destruct (split_ws l); cbn in Ht |- *; [discriminate|]. injection Ht as <-. constructor; [exact H|constructor].
  - intros (b & B & H). apply block_first in B. destruct B as (i & -> & E). cbn [bind]. rewrite E. apply mapM_rows. revert H. apply F2_imp. intros l z H. unfold words in H. cbn [skipn Nat.sub] in H. destruct (split_ws l); cbn in H; inversion H; subst. cbn. assumption.
Qed.
Lemma flat_ok (rows : list (list F)) out : flat_array rows = Ok out <-> same_lengths rows = true /\ out = concat rows.
Proof. unfold flat_array, np_array. destruct (same_lengths rows); cbn; split; try (intros [= <-]); try (intros [? ->]); auto; try discriminate. Qed.
Lemma coords_text e coords : get_coords F pfloat e = Ok coords <-> exists block rows, block_of "POSITION" (ac_num_atoms e) (ac_lines e) block /\ Forall2 (fun l c => reads pfloat (words 1 4 l) c) block rows /\ same_lengths rows = true /\ coords = concat rows.
Proof.
  unfold get_coords. split.
  - intros H. apply bind_ok in H as [i [Hi H]]. apply bind_ok in H as [rows [Hr H]]. apply flat_ok in H. exists (block_after e i), rows. split; [now apply first_block|]. split; [|exact H]. apply mapM_rows in Hr. revert Hr. apply F2_imp. intros l c Hc. now apply mapM_reads.
  - intros (b & rows & B & H & R). apply block_first in B. destruct B as (i & -> & E). cbn [bind]. rewrite E. assert (M : mapM (fun row => mapM pfloat (slice 1 4 (split_ws row))) b = Ok rows) by (apply mapM_rows; revert H; apply F2_imp; intros l c H; now apply mapM_reads). rewrite M. cbn [bind]. now apply flat_ok.
Qed.
Lemma forces_text e block rows : block_of "FORCE" (ac_num_atoms e) (ac_lines e) block -> Forall2 (fun l c => reads pfloat (words 1 4 l) c) block rows -> same_lengths rows = true ->
  get_fatoms F pfloat fzero e = Ok (concat rows).
Proof.
  intros B H R. unfold get_fatoms. apply block_first in B. destruct B as (i & -> & E). cbn [bind]. rewrite E. assert (M : mapM (fun row => mapM pfloat (slice 1 4 (split_ws row))) block = Ok rows) by (apply mapM_rows; revert H; apply F2_imp; intros l c H; now apply mapM_reads). rewrite M. cbn [bind]. unfold flat_array, np_array. rewrite R. reflexivity.
Qed.
Lemma no_forces e : Forall (fun l => ~ heads "FORCE" l) (ac_lines e) -> get_fatoms F pfloat fzero e = Ok (repeat fzero (ac_num_atoms e * 3)).
Proof. intros H. unfold get_fatoms, locate_first, locate_list. apply locate_none with (i := 0) in H. rewrite H. reflexivity. Qed.
Lemma eatoms_text e block xs : block_of "ATOMIC-ENERGY, " (ac_num_atoms e) (ac_lines e) block -> Forall2 (fun l x => reads pfloat (words 1 2 l) [x]) block xs -> get_eatoms F pfloat e = Ok xs.
Proof.
  intros B H. unfold get_eatoms. apply block_first in B. destruct B as (i & -> & E). cbn [bind]. rewrite E. assert (M : mapM (fun row => bind (get (split_ws row) 1) pfloat) block = Ok xs); [|rewrite M; reflexivity].
  apply mapM_rows. revert H. apply F2_imp. intros l x H. unfold words in H. cbn [Nat.sub] in H. destruct (split_ws l) as [|a [|b r]]; cbn in H; inversion H; subst. cbn. assumption.
Qed.
Lemma rows_after pre (head : string) post k x : get (pre ++ head :: post) (length pre + S k) = Ok x <-> nth_error post k = Some x.
Proof. unfold get. rewrite nth_error_app2 by lia. replace (length pre + S k - length pre) with (S k) by lia. cbn. destruct (nth_error post k); split; congruence. Qed.
Lemma box_text e box : get_basis_vectors F pfloat e = Ok box <-> exists pre head a b c post xs ys zs,
  ac_lines e = pre ++ head :: a :: b :: c :: post /\ heads "LATTICE" head /\ Forall (fun l => ~ heads "LATTICE" l) pre /\
  reads pfloat (words 0 3 a) xs /\ reads pfloat (words 0 3 b) ys /\ reads pfloat (words 0 3 c) zs /\ box = xs ++ ys ++ zs.
Proof.
  unfold get_basis_vectors. split.
  - intros H. apply bind_ok in H as [i [Hi H]]. apply first_ok in Hi. destruct Hi as (pre & head & post & E & -> & Hh & Hp). apply bind_ok in H as [rows [Hr H]]. cbn [mapM] in Hr.
    apply bind_ok in Hr as [xs [Hx Hr]]. apply bind_ok in Hr as [r1 [Hr1 Hr]]. apply bind_ok in Hr1 as [ys [Hy Hr1]]. apply bind_ok in Hr1 as [r2 [Hr2 Hr1]]. apply bind_ok in Hr2 as [zs [Hz Hr2]]. cbn [bind] in Hr2. injection Hr2 as <-. injection Hr1 as <-. injection Hr as <-. injection H as <-.
    apply bind_ok in Hx as [a [Ha Hx]]. apply bind_ok in Hy as [b [Hb Hy]]. apply bind_ok in Hz as [c [Hc Hz]]. rewrite E in Ha, Hb, Hc.
    replace (length pre + 1) with (length pre + S 0) in Ha by lia. replace (length pre + 2) with (length pre + S 1) in Hb by lia. replace (length pre + 3) with (length pre + S 2) in Hc by lia. apply rows_after in Ha, Hb, Hc.
    destruct post as [|p0 [|p1 [|p2 post]]]; cbn in Ha, Hb, Hc; try discriminate. injection Ha as ->. injection Hb as ->. injection Hc as ->.
    exists pre, head, a, b, c, post, xs, ys, zs. apply mapM_reads in Hx, Hy, Hz. repeat split; auto. cbn. now rewrite app_nil_r.
  - intros (pre & head & a & b & c & post & xs & ys & zs & E & Hh & Hp & Hx & Hy & Hz & ->).
    assert (L : locate_first "LATTICE" (ac_lines e) = Ok (length pre)) by (apply first_ok; exists pre, head, (a :: b :: c :: post); auto). rewrite L. cbn [bind mapM].
    apply mapM_reads in Hx, Hy, Hz. unfold words in Hx, Hy, Hz. cbn [skipn Nat.sub] in Hx, Hy, Hz.
    assert (G : forall k l, nth_error (a :: b :: c :: post) k = Some l -> get (ac_lines e) (length pre + S k) = Ok l) by (intros k l Hk; rewrite E; now apply rows_after).
    replace (length pre + 1) with (length pre + S 0) by lia. replace (length pre + 2) with (length pre + S 1) by lia. replace (length pre + 3) with (length pre + S 2) by lia.
    rewrite (G 0 a), (G 1 b), (G 2 c) by reflexivity. cbn [bind]. rewrite Hx, Hy, Hz. cbn. now rewrite app_nil_r.
Qed.

Lemma virial_row pre head post e k xs : ac_lines e = pre ++ head :: post -> virial_row_read F pfloat e (length pre + S k) = Ok xs -> exists a, nth_error post k = Some a /\ ends_with pfloat a xs.
Proof.
  intros E H. unfold virial_row_read in H. apply bind_ok in H as [a [Ha H]]. rewrite E in Ha. apply rows_after in Ha. exists a. split; [exact Ha|].
  assert (L : skipn (length (split_ws a) - 3) (split_ws a) = last_n 3 (split_ws a)) by reflexivity. cbn [mapM] in H. remember (last_n 3 (split_ws a)) as ts eqn:Et.
  apply bind_ok in H as [x [Hx H]]. apply bind_ok in H as [r1 [H1 H]]. injection H as <-. apply bind_ok in H1 as [y [Hy H1]]. apply bind_ok in H1 as [r2 [H2 H1]]. injection H1 as <-. apply bind_ok in H2 as [z [Hz H2]]. cbn [bind] in H2. injection H2 as <-.
  apply bind_ok in Hx as [t0 [T0 Hx]]. apply bind_ok in Hy as [t1 [T1 Hy]]. apply bind_ok in Hz as [t2 [T2 Hz]].
  assert (Ln : length ts <= 3) by (rewrite Et; unfold last_n; rewrite skipn_length; lia). destruct ts as [|u0 [|u1 [|u2 [|u3 r]]]]; unfold get in T0, T1, T2; cbn in T0, T1, T2, Ln; try discriminate; [|lia].
  injection T0 as ->. injection T1 as ->. injection T2 as ->. exists (firstn (length (split_ws a) - 3) (split_ws a)), t0, t1, t2. split; [rewrite <- L; symmetry; apply firstn_skipn|]. repeat constructor; assumption.
Qed.
Lemma virial_text e v : get_virial F pfloat e = Ok v -> exists pre head a b c post xs ys zs,
  ac_lines e = pre ++ head :: a :: b :: c :: post /\ heads "LATTICE" head /\ Forall (fun l => ~ heads "LATTICE" l) pre /\
  ends_with pfloat a xs /\ ends_with pfloat b ys /\ ends_with pfloat c zs /\ v = xs ++ ys ++ zs.
Proof.
  unfold get_virial. intros H. apply bind_ok in H as [i [Hi H]]. apply first_ok in Hi. destruct Hi as (pre & head & post & E & -> & Hh & Hp). apply bind_ok in H as [u [_ H]]. apply bind_ok in H as [rows [Hr H]]. cbn [mapM] in Hr.
  apply bind_ok in Hr as [xs [Hx Hr]]. apply bind_ok in Hr as [r1 [Hr1 Hr]]. apply bind_ok in Hr1 as [ys [Hy Hr1]]. apply bind_ok in Hr1 as [r2 [Hr2 Hr1]]. apply bind_ok in Hr2 as [zs [Hz Hr2]]. cbn [bind] in Hr2. injection Hr2 as <-. injection Hr1 as <-. injection Hr as <-. injection H as <-.
  replace (length pre + 1) with (length pre + S 0) in Hx by lia. replace (length pre + 2) with (length pre + S 1) in Hy by lia. replace (length pre + 3) with (length pre + S 2) in Hz by lia.
  apply (virial_row pre head post e) in Hx, Hy, Hz; try exact E. destruct Hx as (a & Ha & Hx), Hy as (b & Hb & Hy), Hz as (c & Hc & Hz).
  destruct post as [|p0 [|p1 [|p2 post]]]; cbn in Ha, Hb, Hc; try discriminate. injection Ha as ->. injection Hb as ->. injection Hc as ->.
  exists pre, head, a, b, c, post, xs, ys, zs. repeat split; auto. cbn. now rewrite app_nil_r.
Qed.

(** ** In terms of the result for a frame *)
Notation frame_info := (get_frame_info F pfloat pint fzero).
Lemma frame_fields x k row txt d : frame_info x k = Ok row -> get_frame_str (me_mv x) k = Ok txt -> search_num_atoms txt = Some d ->
  let e := {| ac_lines := split_on nl txt; ac_num_atoms := N.to_nat (digits_to_N d) |} in
  exists box types coords etot fatoms v mm ea, row = [box; types; coords; etot; fatoms] ++ v ++ mm ++ ea /\ get_basis_vectors F pfloat e = Ok box /\ get_types F pint e = Ok types /\ get_coords F pfloat e = Ok coords /\ get_fatoms F pfloat fzero e = Ok fatoms /\
  opt_field (virial_mark x) (get_virial F pfloat e) = Ok v /\ opt_field (magmoms_mark x) (get_magmoms F pfloat e) = Ok mm /\ opt_field (eatoms_mark x) (get_eatoms F pfloat e) = Ok ea.
Proof.
  intros H T D e. unfold get_frame_info in H. rewrite T in H. cbn [bind] in H. unfold acstr_open in H. rewrite D in H. cbn [bind] in H. fold e in H.
  apply bind_ok in H as [box [H1 H]]. apply bind_ok in H as [types [H2 H]]. apply bind_ok in H as [coords [H3 H]]. apply bind_ok in H as [etot [H4 H]]. apply bind_ok in H as [fatoms [H5 H]]. apply bind_ok in H as [v [H6 H]]. apply bind_ok in H as [mm [H7 H]]. apply bind_ok in H as [ea [H8 H]]. injection H as <-.
  exists box, types, coords, etot, fatoms, v, mm, ea. auto 10.
Qed.
Lemma content file x k row txt d : mve_open F pfloat file = Ok x -> frame_info x k = Ok row -> get_frame_str (me_mv x) k = Ok txt -> search_num_atoms txt = Some d ->
  let n := N.to_nat (digits_to_N d) in let lines := split_on nl txt in
  length row = length (get_info_labels x) /\
  (exists block types rows, block_of "POSITION" n lines block /\ nth_error row 1 = Some types /\ nth_error row 2 = Some (concat rows) /\
     Forall2 (fun l z => reads pint (words 0 1 l) [z]) block types /\ Forall2 (fun l c => reads pfloat (words 1 4 l) c) block rows) /\
  (exists pre head a b c post xs ys zs, lines = pre ++ head :: a :: b :: c :: post /\ heads "LATTICE" head /\ Forall (fun l => ~ heads "LATTICE" l) pre /\
     reads pfloat (words 0 3 a) xs /\ reads pfloat (words 0 3 b) ys /\ reads pfloat (words 0 3 c) zs /\ nth_error row 0 = Some (xs ++ ys ++ zs)) /\
  (forall block rows m, block_of "FORCE" n lines block -> Forall2 (fun l c => reads pfloat (words 1 4 l) c) block rows -> Forall (fun c => length c = m) rows -> nth_error row 4 = Some (concat rows)) /\
  (Forall (fun l => ~ heads "FORCE" l) lines -> nth_error row 4 = Some (repeat fzero (n * 3))) /\
  (forall j, nth_error (get_info_labels x) j = Some "virial" -> exists pre head a b c post xs ys zs, lines = pre ++ head :: a :: b :: c :: post /\ heads "LATTICE" head /\ Forall (fun l => ~ heads "LATTICE" l) pre /\
     ends_with pfloat a xs /\ ends_with pfloat b ys /\ ends_with pfloat c zs /\ nth_error row j = Some (xs ++ ys ++ zs)) /\
  (forall block xs j, block_of "ATOMIC-ENERGY, " n lines block -> Forall2 (fun l y => reads pfloat (words 1 2 l) [y]) block xs -> nth_error (get_info_labels x) j = Some "etaoms" -> nth_error row j = Some xs).
Proof.
  intros O H T D n lines. destruct (frame_fields _ _ _ _ _ H T D) as (box & types & coords & etot & fatoms & v & mm & ea & -> & B & Ty & Co & Fo & V & M & E). clear H.
  set (e := {| ac_lines := split_on nl txt; ac_num_atoms := N.to_nat (digits_to_N d) |}) in *. apply mve_open_inv in O. destruct O as [_ Mm]. rewrite Mm in M. cbn [opt_field] in M. injection M as <-.
  split; [|split; [|split; [|split; [|split; [|split]]]]].
  - unfold get_info_labels. rewrite Mm. apply opt_field_ok in V, E. destruct (virial_mark x), (eatoms_mark x); repeat match goal with H : exists _, _ |- _ => destruct H as (? & _ & ->) | H : _ = [] |- _ => rewrite H end; reflexivity.
  - apply types_text in Ty. destruct Ty as (b & B1 & T1). apply coords_text in Co. destruct Co as (b' & rows & B2 & C1 & _ & ->). assert (b' = b) by (eapply block_unique; eauto). subst b'. exists b, types, rows. auto.
  - apply box_text in B. destruct B as (pre & head & a & b & c & post & xs & ys & zs & E1 & E2 & E3 & E4 & E5 & E6 & ->). exists pre, head, a, b, c, post, xs, ys, zs. auto 10.
  - intros block rows m B1 R1 L1. cbn. rewrite (forces_text e block rows B1 R1) in Fo; [congruence|]. destruct L1 as [|r rs L L1]; [reflexivity|]. cbn. apply forallb_forall. intros y Iy. apply Nat.eqb_eq. rewrite Forall_forall in L1. rewrite (L1 y Iy). auto.
  - intros Nf. cbn. rewrite (no_forces e Nf) in Fo. injection Fo as <-. reflexivity.
  - intros j J. unfold get_info_labels in J. rewrite Mm in J. apply opt_field_ok in V. assert (Q : virial_mark x = true /\ j = 5).
    { destruct (virial_mark x), (eatoms_mark x); do 7 (destruct j as [|j]; [cbn in J; first [discriminate|now split]|]); destruct j; discriminate. }
    destruct Q as [Q ->]. rewrite Q in V. destruct V as (w & V & ->). apply virial_text in V. destruct V as (pre & head & a & b & c & post & xs & ys & zs & E1 & E2 & E3 & E4 & E5 & E6 & ->). exists pre, head, a, b, c, post, xs, ys, zs. auto 10.
  - intros block xs j B1 R1 J. unfold get_info_labels in J. rewrite Mm in J. rewrite (eatoms_text e block xs B1 R1) in E. apply opt_field_ok in V, E. destruct (virial_mark x), (eatoms_mark x); repeat match goal with H : exists _, _ |- _ => destruct H as (? & ?H & ->) | H : _ = [] |- _ => rewrite H end;
      do 7 (destruct j as [|j]; [cbn in J; first [discriminate|cbn; congruence]|]); destruct j; discriminate.
Qed.
End C.
