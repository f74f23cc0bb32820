(** Lemmas about parameter objects on the heap. *)
From Verif Require Import HeapModel HeapProofs ParamModel ParamSpec.
Open Scope nat_scope.

Inductive field : Type := FB | FT | FM.
Definition fptr (o : param) (f : field) : ptr := match f with FB => basic o | FT => times o | FM => mapping o end.
Definition fcnt (o : param) (f : field) : nat := match f with FB => 4 * basic_count o | FT => 4 * times_count o | FM => scalar_count o end.
Definition fval (v : value) (f : field) : list Z := let '(_, b, t, m) := v in match f with FB => b | FT => t | FM => m end.
Definition mom (v : value) : Z := let '(c, _, _, _) := v in c.

Definition rep (h : heap) (o : param) (v : value) : Prop :=
  moments_count o = mom v /\ forall f, length (fval v f) = fcnt o f /\ tab h (fptr o f) (fval v f).
Definition inj (os : objects) : Prop :=
  forall i j f g o o' b, os i = Some o -> os j = Some o' -> fptr o f = Some b -> fptr o' g = Some b -> i = j /\ f = g.
Definition good (os : objects) (h : heap) (s : store_of) : Prop :=
  (forall i, match os i, s i with Some o, Some v => rep h o v | None, None => True | _, _ => False end) /\ inj os.
Definition no_garbage (os : objects) (h : heap) : Prop :=
  forall b c, nth_error h b = Some (Some c) -> exists i o f, os i = Some o /\ fptr o f = Some b.

Lemma good_some os h s i v : good os h s -> s i = Some v -> exists o, os i = Some o /\ rep h o v.
Proof. intros [G _] E. specialize (G i). rewrite E in G. destruct (os i) as [o|]; [|contradiction]. exists o. split; [reflexivity|exact G]. Qed.
Lemma good_none os h s i : good os h s -> s i = None -> os i = None.
Proof. intros [G _] E. specialize (G i). rewrite E in G. destruct (os i); [contradiction|reflexivity]. Qed.
Lemma good_bound os h s i o f b : good os h s -> os i = Some o -> fptr o f = Some b -> b < length h.
Proof.
  intros [G _] E P. specialize (G i). rewrite E in G. destruct (s i) as [v|]; [|contradiction]. destruct G as [_ G]. destruct (G f) as [_ T]. eapply tab_bound; eassumption.
Qed.
Lemma rep_frame h h' o v : (forall f b, fptr o f = Some b -> nth_error h' b = nth_error h b) -> rep h o v -> rep h' o v.
Proof. intros F [M R]. split; [exact M|]. intros f. destruct (R f) as [L T]. split; [exact L|]. eapply tab_frame; [|exact T]. intros b B. apply (F f b B). Qed.
Lemma rep_extend h e o v : rep h o v -> rep (h ++ e) o v.
Proof. intros [M R]. split; [exact M|]. intros f. destruct (R f) as [L T]. split; [exact L|]. apply tab_extend, T. Qed.

(** A new object whose pointers are all fresh (or null). *)
Lemma good_alloc os h s i o v e : good os h s -> s i = None -> rep (h ++ e) o v ->
  (forall f b, fptr o f = Some b -> length h <= b) -> (forall f g b, fptr o f = Some b -> fptr o g = Some b -> f = g) ->
  good (put_obj os i (Some o)) (h ++ e) (set_value s i (Some v)).
Proof.
  intros Gd N R Fr Dj. assert (Ni := good_none _ _ _ _ Gd N). split.
  - intros k. unfold put_obj, set_value. destruct (Nat.eqb_spec k i) as [->|D]; [exact R|]. destruct Gd as [G _]. specialize (G k).
    destruct (os k), (s k); try exact G. apply rep_extend, G.
  - intros k j f g o1 o2 b. unfold put_obj. destruct (Nat.eqb_spec k i) as [->|D1]; destruct (Nat.eqb_spec j i) as [->|D2]; intros E1 E2 P1 P2.
    + injection E1 as <-. injection E2 as <-. split; [reflexivity|eapply Dj; eassumption].
    + injection E1 as <-. assert (B := good_bound _ _ _ _ _ _ _ Gd E2 P2). assert (B2 := Fr _ _ P1). lia.
    + injection E2 as <-. assert (B := good_bound _ _ _ _ _ _ _ Gd E1 P1). assert (B2 := Fr _ _ P2). lia.
    + destruct Gd as [_ J]. eapply J; eassumption.
Qed.

(** *** Copy loops *)
Lemma seq_four a n : seq (4 * a) (4 * S n) = [4 * a + 0; 4 * a + 1; 4 * a + 2; 4 * a + 3] ++ seq (4 * S a) (4 * n).
Proof.
  replace (4 * S n) with (4 + 4 * n) by lia. rewrite seq_app. f_equal; [cbn [seq]|f_equal; lia].
  repeat (apply f_equal2; [lia|]). reflexivity.
Qed.
Lemma copy_rows_cells dst src n h : copy_rows h dst src n = copy_cells h dst src (4 * n).
Proof.
  unfold copy_rows. match goal with |- hfold ?f _ _ = _ => set (row := f) end.
  assert (G : forall n h a, hfold row (seq a n) h = hfold (fun h ii => hbind (load h src ii) (fun v => store h dst ii v)) (seq (4 * a) (4 * n)) h); [|exact (G n h 0)].
  clear n h. induction n as [|n IH]; intros h a; [reflexivity|].
  rewrite seq_four, hfold_app. cbn [seq hfold]. unfold row at 1. cbn [hbind]. destruct (load h src (4 * a + 0)); cbn [hbind]; [|reflexivity].
  destruct (store h dst (4 * a + 0) x) as [h1|]; cbn [hbind]; [|reflexivity]. destruct (load h1 src (4 * a + 1)); cbn [hbind]; [|reflexivity].
  destruct (store h1 dst (4 * a + 1) x0) as [h2|]; cbn [hbind]; [|reflexivity]. destruct (load h2 src (4 * a + 2)); cbn [hbind]; [|reflexivity].
  destruct (store h2 dst (4 * a + 2) x1) as [h3|]; cbn [hbind]; [|reflexivity]. destruct (load h3 src (4 * a + 3)); cbn [hbind]; [|reflexivity].
  destruct (store h3 dst (4 * a + 3) x2) as [h4|]; cbn [hbind]; [|reflexivity]. apply IH.
Qed.
Lemma copy_cells_ok h src vs : tab h src vs ->
  copy_cells (h ++ [Some (repeat None (length vs))]) (Some (length h)) src (length vs) = HOk (h ++ [Some (map Some vs)]).
Proof.
  intros T. unfold copy_cells. apply fill_loop. intros k L.
  rewrite (load_tab (partly h vs k) src vs k); [reflexivity| |exact L]. apply tab_extend, T.
Qed.
Lemma copy_rows_ok h src vs n : tab h src vs -> length vs = 4 * n ->
  copy_rows (h ++ [Some (repeat None (4 * n))]) (Some (length h)) src n = HOk (h ++ [Some (map Some vs)]).
Proof. intros T L. rewrite copy_rows_cells, <- L. apply copy_cells_ok, T. Qed.
Lemma fill_ok h vs n : length vs = n -> fill (h ++ [Some (repeat None n)]) (Some (length h)) vs = HOk (h ++ [Some (map Some vs)]).
Proof. intros <-. unfold fill. apply fill_loop. intros k L. reflexivity. Qed.

Lemma app1 {A} (h : list A) x y : (h ++ [x]) ++ [y] = h ++ [x; y]. Proof. rewrite <- app_assoc. reflexivity. Qed.

Lemma copy_param_ok h rhs v : rep h rhs v -> exists o e, copy_param h rhs = HOk (o, h ++ e) /\ rep (h ++ e) o v /\
  (forall f b, fptr o f = Some b -> length h <= b) /\ (forall f g b, fptr o f = Some b -> fptr o g = Some b -> f = g) /\
  (forall b c, length h <= b -> nth_error (h ++ e) b = Some (Some c) -> exists f, fptr o f = Some b).
Proof.
  intros [M R]. destruct (R FB) as [LB TB]. destruct (R FT) as [LT TT]. destruct (R FM) as [LM TM].
  destruct v as [[[mc vb] vt] vm]. cbn [fval fcnt fptr mom] in *. unfold copy_param, malloc.
  rewrite (copy_rows_ok h _ vb _ TB LB). cbn [hbind].
  rewrite (copy_rows_ok (h ++ [Some (map Some vb)]) _ vt _ (tab_extend _ _ _ _ TT) LT). cbn [hbind].
  rewrite <- LM. rewrite (copy_cells_ok ((h ++ [Some (map Some vb)]) ++ [Some (map Some vt)]) _ vm (tab_extend _ _ _ _ (tab_extend _ _ _ _ TM))). cbn [hbind].
  rewrite <- !app_assoc. cbn [app].
  eexists. exists [Some (map Some vb); Some (map Some vt); Some (map Some vm)]. split; [reflexivity|].
  rewrite !app_length. cbn [length]. split; [|split; [|split]].
  - split; [exact M|]. intros [| |]; cbn [fval fcnt fptr basic times mapping basic_count times_count scalar_count]; (split; [first [assumption|reflexivity]|]); right; eexists; (split; [reflexivity|]);
      rewrite nth_error_app2 by lia.
    + rewrite Nat.sub_diag. reflexivity.
    + replace (length h + 1 - length h) with 1 by lia. reflexivity.
    + replace (length h + 2 - length h) with 2 by lia. reflexivity.
  - intros [| |] b; cbn [fptr basic times mapping]; intros [= <-]; lia.
  - intros [| |] [| |] b; cbn [fptr basic times mapping]; intros P Q; try reflexivity; try discriminate; injection P as P; injection Q as Q; lia.
  - intros b c L N. rewrite nth_error_app2 in N by lia. assert (Hb : b - length h < 3) by (change 3 with (length [Some (map Some vb); Some (map Some vt); Some (map Some vm)]); apply nth_error_Some; congruence).
    destruct (Nat.eq_dec b (length h)); [exists FB; cbn; f_equal; lia|]. destruct (Nat.eq_dec b (length h + 1)); [exists FT; cbn; f_equal; lia|]. exists FM. cbn. f_equal. lia.
Qed.

Lemma load_param_ok h mc vb vt vm nb nt ns : length vb = 4 * nb -> length vt = 4 * nt -> length vm = ns ->
  exists o e, load_param h mc vb vt vm nb nt ns = HOk (o, h ++ e) /\ rep (h ++ e) o (mc, vb, vt, vm) /\
  (forall f b, fptr o f = Some b -> length h <= b) /\ (forall f g b, fptr o f = Some b -> fptr o g = Some b -> f = g) /\
  (forall b c, length h <= b -> nth_error (h ++ e) b = Some (Some c) -> exists f, fptr o f = Some b).
Proof.
  intros LB LT LM. unfold load_param, malloc. rewrite (fill_ok h vb _ LB). cbn [hbind].
  destruct (Nat.eqb_spec nt 0) as [->|D].
  - destruct vt; [|cbn in LT; lia]. cbn [hbind]. rewrite (fill_ok (h ++ [Some (map Some vb)]) vm _ LM). cbn [hbind]. rewrite app1.
    eexists. exists [Some (map Some vb); Some (map Some vm)]. split; [reflexivity|]. rewrite !app_length. cbn [length]. split; [|split; [|split]].
    + split; [reflexivity|]. intros [| |]; cbn [fval fcnt fptr basic times mapping basic_count times_count scalar_count]; (split; [first [assumption|reflexivity]|]).
      * right; eexists; (split; [reflexivity|]); rewrite nth_error_app2 by lia. rewrite Nat.sub_diag. reflexivity.
      * left. split; reflexivity.
      * right; eexists; (split; [reflexivity|]); rewrite nth_error_app2 by lia. replace (length h + 1 - length h) with 1 by lia. reflexivity.
    + intros [| |] b; cbn [fptr basic times mapping]; intros [= <-]; lia.
    + intros [| |] [| |] b; cbn [fptr basic times mapping]; intros P Q; try reflexivity; try discriminate; injection P as P; injection Q as Q; lia.
    + intros b c L N. rewrite nth_error_app2 in N by lia. assert (Hb : b - length h < 2) by (change 2 with (length [Some (map Some vb); Some (map Some vm)]); apply nth_error_Some; congruence).
      destruct (Nat.eq_dec b (length h)); [exists FB; cbn; f_equal; lia|]. exists FM. cbn. f_equal. lia.
  - rewrite (fill_ok (h ++ [Some (map Some vb)]) vt _ LT). cbn [hbind]. rewrite (fill_ok ((h ++ [Some (map Some vb)]) ++ [Some (map Some vt)]) vm _ LM). cbn [hbind]. rewrite <- !app_assoc. cbn [app].
    eexists. exists [Some (map Some vb); Some (map Some vt); Some (map Some vm)]. split; [reflexivity|].
    rewrite !app_length. cbn [length]. split; [|split; [|split]].
    + split; [reflexivity|]. intros [| |]; cbn [fval fcnt fptr basic times mapping basic_count times_count scalar_count]; (split; [first [assumption|reflexivity]|]); right; eexists; (split; [reflexivity|]);
        rewrite nth_error_app2 by lia.
      * rewrite Nat.sub_diag. reflexivity.
      * replace (length h + 1 - length h) with 1 by lia. reflexivity.
      * replace (length h + 2 - length h) with 2 by lia. reflexivity.
    + intros [| |] b; cbn [fptr basic times mapping]; intros [= <-]; lia.
    + intros [| |] [| |] b; cbn [fptr basic times mapping]; intros P Q; try reflexivity; try discriminate; injection P as P; injection Q as Q; lia.
    + intros b c L N. rewrite nth_error_app2 in N by lia. assert (Hb : b - length h < 3) by (change 3 with (length [Some (map Some vb); Some (map Some vt); Some (map Some vm)]); apply nth_error_Some; congruence).
      destruct (Nat.eq_dec b (length h)); [exists FB; cbn; f_equal; lia|]. destruct (Nat.eq_dec b (length h + 1)); [exists FT; cbn; f_equal; lia|]. exists FM. cbn. f_equal. lia.
Qed.

(** *** Releasing *)
Lemma free_three h o v (keep : field -> bool) : rep h o v -> (forall f g b, fptr o f = Some b -> fptr o g = Some b -> f = g) ->
  exists h', hbind (if keep FB then HOk h else hfree h (basic o)) (fun h =>
             hbind (if keep FT then HOk h else hfree h (times o)) (fun h =>
             if keep FM then HOk h else hfree h (mapping o))) = HOk h' /\ length h' = length h /\
  (forall f b, keep f = false -> fptr o f = Some b -> nth_error h' b = Some None) /\
  (forall b, (forall f, fptr o f = Some b -> keep f = true) -> nth_error h' b = nth_error h b).
Proof.
  intros [_ R] Dj.
  assert (One : forall f h0, tab h0 (fptr o f) (fval v f) -> exists h', (if keep f then HOk h0 else hfree h0 (fptr o f)) = HOk h' /\ length h' = length h0 /\
     (forall b, keep f = false -> fptr o f = Some b -> nth_error h' b = Some None) /\ (forall b, (fptr o f = Some b -> keep f = true) -> nth_error h' b = nth_error h0 b)).
  { intros f h0 T. destruct (keep f); [exists h0; repeat split; congruence|]. destruct (free_tab _ _ _ T) as (h' & E & L & A & B). exists h'. split; [exact E|]. split; [exact L|]. split; [auto|].
    intros b H. apply B. intros X. specialize (H X). discriminate. }
  destruct (One FB h (proj2 (R FB))) as (h1 & E1 & L1 & A1 & B1). cbn [fptr] in E1. rewrite E1. cbn [hbind].
  assert (T2 : tab h1 (fptr o FT) (fval v FT)). { eapply tab_frame; [|apply (proj2 (R FT))]. intros b P. apply B1. intros Q. discriminate (Dj _ _ _ P Q). }
  destruct (One FT h1 T2) as (h2 & E2 & L2 & A2 & B2). cbn [fptr] in E2. rewrite E2. cbn [hbind].
  assert (T3 : tab h2 (fptr o FM) (fval v FM)).
  { eapply tab_frame; [|apply (proj2 (R FM))]. intros b P. rewrite B2, B1; [reflexivity| |]; intros Q; discriminate (Dj _ _ _ P Q). }
  destruct (One FM h2 T3) as (h3 & E3 & L3 & A3 & B3). exists h3. split; [exact E3|]. split; [congruence|]. split.
  - intros f b K P. destruct f.
    + rewrite B3, B2; [apply A1; assumption| |]; intros Q; discriminate (Dj _ _ _ P Q).
    + rewrite B3; [apply A2; assumption|]; intros Q; discriminate (Dj _ _ _ P Q).
    + apply A3; assumption.
  - intros b H. rewrite B3, B2, B1; [reflexivity|apply H|apply H|apply H].
Qed.

Lemma inj_own os i o : inj os -> os i = Some o -> forall f g b, fptr o f = Some b -> fptr o g = Some b -> f = g.
Proof. intros J E f g b P Q. apply (J i i f g o o b E E P Q). Qed.

Lemma release_ok h o v : rep h o v -> (forall f g b, fptr o f = Some b -> fptr o g = Some b -> f = g) ->
  exists h', release h o = HOk ({| moments_count := 0; basic_count := 0; basic := basic o; times_count := 0; times := times o; scalar_count := 0; mapping := mapping o |}, h') /\
  length h' = length h /\
  (forall f b, fval v f <> [] -> fptr o f = Some b -> nth_error h' b = Some None) /\
  (forall b, (forall f, fptr o f = Some b -> fval v f = []) -> nth_error h' b = nth_error h b).
Proof.
  intros R Dj. destruct (free_three h o v (fun f => match f with FB => basic_count o =? 0 | FT => times_count o =? 0 | FM => scalar_count o =? 0 end) R Dj) as (h' & E & L & A & B).
  assert (Z0 : forall f, (match f with FB => basic_count o =? 0 | FT => times_count o =? 0 | FM => scalar_count o =? 0 end) = true <-> fval v f = []).
  { intros f. destruct R as [_ R]. destruct (R f) as [Lf _]. destruct f; rewrite Nat.eqb_eq; cbn [fcnt] in Lf;
      (split; [intros Q; apply length_zero_iff_nil; lia|intros Q; rewrite Q in Lf; cbn in Lf; lia]). }
  exists h'. split.
  - unfold release. destruct (if basic_count o =? 0 then HOk h else hfree h (basic o)) as [h1|]; cbn [hbind] in *; [|discriminate].
    destruct (if times_count o =? 0 then HOk h1 else hfree h1 (times o)) as [h2|]; cbn [hbind] in *; [|discriminate]. rewrite E. reflexivity.
  - split; [exact L|]. split.
    + intros f b N P. apply (A f b); [|exact P]. apply not_true_iff_false. intros Q. apply Z0 in Q. contradiction.
    + intros b H. apply B. intros f P. apply Z0, H, P.
Qed.

Lemma destroy_ok os h s i v : good os h s -> s i = Some v -> exists h', destroy (os, h) i = HOk (put_obj os i None, h') /\
  good (put_obj os i None) h' (set_value s i None) /\ (no_garbage os h -> no_garbage (put_obj os i None) h').
Proof.
  intros Gd S. destruct (good_some _ _ _ _ _ Gd S) as (o & E & R). assert (J := proj2 Gd).
  destruct (free_three h o v (fun _ => false) R (inj_own _ _ _ J E)) as (h' & F & L & A & B). cbn beta iota in F. exists h'.
  assert (Keep : forall k o' f b, k <> i -> os k = Some o' -> fptr o' f = Some b -> nth_error h' b = nth_error h b).
  { intros k o' f b D E' P. apply B. intros g Q. destruct (J _ _ _ _ _ _ _ E' E P Q). contradiction. }
  split; [|split].
  - unfold destroy, obj. rewrite E. cbn [hbind]. destruct (hfree h (basic o)) as [h1|]; cbn [hbind] in *; [|discriminate].
    destruct (hfree h1 (times o)) as [h2|]; cbn [hbind] in *; [|discriminate]. rewrite F. reflexivity.
  - split.
    + intros k. unfold put_obj, set_value. destruct (Nat.eqb_spec k i) as [->|D]; [exact I|]. destruct Gd as [G _]. specialize (G k).
      destruct (os k) as [o'|] eqn:Ek, (s k); try exact G. eapply rep_frame; [|exact G]. intros f b P. eapply Keep; eassumption.
    + intros k j f g o1 o2 b. unfold put_obj. destruct (Nat.eqb_spec k i); [discriminate|]. destruct (Nat.eqb_spec j i); [discriminate|]. apply J.
  - intros N b c Hb. destruct (option_map (fun x => x) (nth_error h b)) as [x|] eqn:Old.
    + assert (X : forall f, fptr o f <> Some b) by (intros f P; rewrite (A f b eq_refl P) in Hb; discriminate).
      rewrite B in Hb by (intros f P; destruct (X f P)). destruct (N b c Hb) as (k & o' & f & Ek & P). exists k, o', f. split; [|exact P].
      unfold put_obj. destruct (Nat.eqb_spec k i) as [->|D]; [|exact Ek]. rewrite E in Ek. injection Ek as <-. destruct (X f P).
    + assert (Y : b < length h') by (apply nth_error_Some; congruence). rewrite L in Y. apply nth_error_Some in Y. destruct (nth_error h b); [discriminate|congruence].
Qed.

(** *** Copy assignment *)
Lemma assign_rows {X} h p src vs n : tab h src vs -> length vs = 4 * n -> exists p' e,
  (forall K : ptr -> heap -> hres X,
    (let '(pb, h0) := if n =? 0 then (p, h) else malloc h (4 * n) in hbind (if n =? 0 then HOk h0 else copy_rows h0 pb src n) (fun h1 => K pb h1)) = K p' (h ++ e)) /\
  ((vs = [] /\ p' = p /\ e = []) \/ (vs <> [] /\ p' = Some (length h) /\ e = [Some (map Some vs)])).
Proof.
  intros T L. destruct (Nat.eqb_spec n 0) as [->|D].
  - exists p, []. rewrite app_nil_r. split; [reflexivity|]. left. destruct vs; [|cbn in L; lia]. repeat split.
  - exists (Some (length h)), [Some (map Some vs)]. split; [|right; repeat split; intros ->; cbn in L; lia].
    intros K. unfold malloc. rewrite (copy_rows_ok _ _ _ _ T L). reflexivity.
Qed.
Lemma assign_cells {X} h p src vs n : tab h src vs -> length vs = n -> exists p' e,
  (forall K : ptr -> heap -> hres X,
    (let '(pb, h0) := if n =? 0 then (p, h) else malloc h n in hbind (if n =? 0 then HOk h0 else copy_cells h0 pb src n) (fun h1 => K pb h1)) = K p' (h ++ e)) /\
  ((vs = [] /\ p' = p /\ e = []) \/ (vs <> [] /\ p' = Some (length h) /\ e = [Some (map Some vs)])).
Proof.
  intros T L. destruct (Nat.eqb_spec n 0) as [->|D].
  - exists p, []. rewrite app_nil_r. split; [reflexivity|]. left. destruct vs; [|cbn in L; lia]. repeat split.
  - exists (Some (length h)), [Some (map Some vs)]. split; [|right; repeat split; intros ->; cbn in L; lia].
    intros K. unfold malloc. rewrite <- L. rewrite (copy_cells_ok _ _ _ T). reflexivity.
Qed.

Lemma copy_assign_general os h s i j v u : good os h s -> i <> j -> s i = Some v -> s j = Some u ->
  exists o o' os' h1 e, os i = Some o /\ copy_assign (os, h) i j = HOk (os', h1 ++ e) /\ (forall k, os' k = put_obj os i (Some o') k) /\
  length h1 = length h /\
  (forall f b, fval v f <> [] -> fptr o f = Some b -> nth_error h1 b = Some None) /\
  (forall b, (forall f, fptr o f = Some b -> fval v f = []) -> nth_error h1 b = nth_error h b) /\
  moments_count o' = mom u /\ (forall f, length (fval u f) = fcnt o' f) /\
  (forall f, fval u f = [] -> fptr o' f = fptr o f) /\
  (forall f, fval u f <> [] -> tab (h1 ++ e) (fptr o' f) (fval u f) /\ exists b, fptr o' f = Some b /\ length h <= b) /\
  (forall f g b, fptr o' f = Some b -> fptr o' g = Some b -> f = g).
Proof.
  intros Gd D Si Sj. destruct (good_some _ _ _ _ _ Gd Si) as (o & Ei & R). destruct (good_some _ _ _ _ _ Gd Sj) as (rhs & Ej & Rj).
  assert (J := proj2 Gd). assert (Dj := inj_own _ _ _ J Ei). destruct (release_ok h o v R Dj) as (h1 & E1 & L1 & A1 & B1).
  assert (Rj1 : rep h1 rhs u). { eapply rep_frame; [|exact Rj]. intros f b P. apply B1. intros g Q. destruct (J _ _ _ _ _ _ _ Ei Ej Q P). contradiction. }
  assert (Bd : forall f b, fptr o f = Some b -> b < length h1) by (intros f b P; rewrite L1; exact (good_bound _ _ _ _ _ _ _ Gd Ei P)).
  destruct Rj1 as [M Rj1]. destruct (Rj1 FB) as [LB TB]. destruct (Rj1 FT) as [LT TT]. destruct (Rj1 FM) as [LM TM].
  cbn [fcnt fptr] in *.
  destruct (@assign_rows world h1 (basic o) (basic rhs) (fval u FB) (basic_count rhs) TB LB) as (pb & e1 & K1 & C1).
  destruct (@assign_rows world (h1 ++ e1) (times o) (times rhs) (fval u FT) (times_count rhs) (tab_extend _ _ _ _ TT) LT) as (pt & e2 & K2 & C2).
  destruct (@assign_cells world ((h1 ++ e1) ++ e2) (mapping o) (mapping rhs) (fval u FM) (scalar_count rhs) (tab_extend _ _ _ _ (tab_extend _ _ _ _ TM)) LM) as (pm & e3 & K3 & C3).
  exists o, {| moments_count := moments_count rhs; basic_count := basic_count rhs; basic := pb; times_count := times_count rhs; times := pt; scalar_count := scalar_count rhs; mapping := pm |}.
  eexists. exists h1, (e1 ++ e2 ++ e3). split; [exact Ei|]. split; [|split; [|split; [exact L1|split; [exact A1|split; [exact B1|]]]]].
  - unfold copy_assign, obj. rewrite Ei, Ej. cbn [hbind]. rewrite E1. cbn [hbind].
    assert (X : put_obj os i (Some {| moments_count := 0; basic_count := 0; basic := basic o; times_count := 0; times := times o; scalar_count := 0; mapping := mapping o |}) j = Some rhs).
    { unfold put_obj. destruct (Nat.eqb_spec j i); [congruence|exact Ej]. }
    rewrite X. cbn [hbind]. cbn [basic times mapping].
    refine (eq_trans (K1 _) _). cbv beta. refine (eq_trans (K2 _) _). cbv beta. refine (eq_trans (K3 _) _). cbv beta. rewrite !app_assoc. reflexivity.
  - intros k. unfold put_obj. destruct (k =? i); reflexivity.
  - cbn [moments_count]. split; [exact M|]. split; [intros [| |]; cbn [fcnt basic_count times_count scalar_count]; assumption|].
    split; [intros [| |] Q; cbn [fptr basic times mapping]|].
    { destruct C1 as [(_ & Q1 & _)|(Q1 & _)]; [exact Q1|contradiction]. }
    { destruct C2 as [(_ & Q1 & _)|(Q1 & _)]; [exact Q1|contradiction]. }
    { destruct C3 as [(_ & Q1 & _)|(Q1 & _)]; [exact Q1|contradiction]. }
    split.
    { intros [| |] Q; cbn [fptr basic times mapping].
      - destruct C1 as [(Q1 & _)|(_ & -> & ->)]; [contradiction|]. split; [rewrite app_assoc; apply tab_extend, tab_fresh|]. eexists. split; [reflexivity|lia].
      - destruct C2 as [(Q1 & _)|(_ & -> & ->)]; [contradiction|]. split; [rewrite !app_assoc; apply tab_extend, tab_fresh|]. eexists. split; [reflexivity|rewrite app_length; lia].
      - destruct C3 as [(Q1 & _)|(_ & -> & ->)]; [contradiction|]. split; [rewrite !app_assoc; apply tab_fresh|]. eexists. split; [reflexivity|rewrite !app_length; lia]. }
    { assert (G1 : pb = basic o /\ e1 = [] \/ pb = Some (length h1) /\ length e1 = 1) by (destruct C1 as [(_ & -> & ->)|(_ & -> & ->)]; [left|right]; split; reflexivity).
      assert (G2 : pt = times o /\ e2 = [] \/ pt = Some (length (h1 ++ e1)) /\ length e2 = 1) by (destruct C2 as [(_ & -> & ->)|(_ & -> & ->)]; [left|right]; split; reflexivity).
      assert (G3 : pm = mapping o \/ pm = Some (length ((h1 ++ e1) ++ e2))) by (destruct C3 as [(_ & -> & _)|(_ & -> & _)]; [left|right]; reflexivity).
      rewrite !app_length in *.
      assert (OB : forall b, basic o = Some b -> b < length h1) by (intros b; apply (Bd FB)).
      assert (OT : forall b, times o = Some b -> b < length h1) by (intros b; apply (Bd FT)).
      assert (OM : forall b, mapping o = Some b -> b < length h1) by (intros b; apply (Bd FM)).
      assert (BT : forall b, pb = Some b -> pt = Some b -> False).
      { intros b P Q. destruct G1 as [[-> X1]|[-> X1]], G2 as [[-> X2]|[-> X2]].
        - discriminate (Dj FB FT b P Q).
        - injection Q as <-. specialize (OB _ P). lia.
        - injection P as <-. specialize (OT _ Q). lia.
        - injection P as <-. injection Q as Q. lia. }
      assert (BM : forall b, pb = Some b -> pm = Some b -> False).
      { intros b P Q. destruct G1 as [[-> X1]|[-> X1]], G3 as [->| ->].
        - discriminate (Dj FB FM b P Q).
        - injection Q as <-. specialize (OB _ P). lia.
        - injection P as <-. specialize (OM _ Q). lia.
        - injection P as <-. injection Q as Q. lia. }
      assert (TM' : forall b, pt = Some b -> pm = Some b -> False).
      { intros b P Q. destruct G2 as [[-> X1]|[-> X1]], G3 as [->| ->].
        - discriminate (Dj FT FM b P Q).
        - injection Q as <-. specialize (OT _ P). lia.
        - injection P as <-. specialize (OM _ Q). lia.
        - injection P as <-. injection Q as Q. lia. }
      intros [| |] [| |] b; cbn [fptr basic times mapping]; intros P Q; try reflexivity; exfalso; eauto. }
Qed.

Lemma keeps_fields v u : keeps_tables v u -> forall f, fval u f = [] -> fval v f = [].
Proof. destruct v as [[[a b] c] d], u as [[[a' b'] c'] d']. cbn. intros (A & B & C) [| |]; assumption. Qed.

Lemma copy_assign_ok os h s i j v u : good os h s -> i <> j -> s i = Some v -> s j = Some u -> keeps_tables v u ->
  exists os' h', copy_assign (os, h) i j = HOk (os', h') /\ good os' h' (set_value s i (s j)).
Proof.
  intros Gd D Si Sj Kp. destruct (copy_assign_general _ _ _ _ _ _ _ Gd D Si Sj) as (o & o' & os' & h1 & e & Ei & Run & Os & L1 & A1 & B1 & M & Cn & Same & New & Dj').
  exists os', (h1 ++ e). split; [exact Run|]. assert (J := proj2 Gd). destruct (good_some _ _ _ _ _ Gd Si) as (o0 & Ei' & [Mo R]). rewrite Ei in Ei'. injection Ei' as <-.
  assert (Keep : forall k ok f b, k <> i -> os k = Some ok -> fptr ok f = Some b -> nth_error (h1 ++ e) b = nth_error h b).
  { intros k ok f b Dk Ek P. assert (Bd := good_bound _ _ _ _ _ _ _ Gd Ek P). rewrite nth_error_app1 by lia. apply B1. intros g Q. destruct (J _ _ _ _ _ _ _ Ek Ei P Q). contradiction. }
  split.
  - intros k. rewrite Os. unfold put_obj, set_value. destruct (Nat.eqb_spec k i) as [->|Dk].
    + rewrite Sj. split; [exact M|]. intros f. split; [apply Cn|]. destruct (fval u f) as [|x l] eqn:Ef.
      * rewrite (Same f Ef). assert (Vf := keeps_fields _ _ Kp f Ef). destruct (R f) as [_ T]. rewrite Vf in T. apply tab_extend. eapply tab_frame; [|exact T].
        intros b P. apply B1. intros g Q. rewrite (inj_own _ _ _ J Ei g f b Q P). exact Vf.
      * rewrite <- Ef. apply New. congruence.
    + destruct Gd as [G _]. specialize (G k). destruct (os k) as [ok|] eqn:Ek, (s k); try exact G. eapply rep_frame; [|exact G]. intros f b P. eapply Keep; eassumption.
  - assert (Old : forall k ok f g b, k <> i -> os k = Some ok -> fptr ok f = Some b -> fptr o' g = Some b -> False).
    { intros k ok f g b Dk Ek P Q. destruct (fval u g) as [|x l] eqn:Eg.
      - rewrite (Same g Eg) in Q. destruct (J _ _ _ _ _ _ _ Ek Ei P Q). contradiction.
      - destruct (New g) as [_ (b' & Q' & Lb)]; [congruence|]. rewrite Q in Q'. injection Q' as <-. assert (Bd := good_bound _ _ _ _ _ _ _ Gd Ek P). lia. }
    intros k m f g ok om b. rewrite !Os. unfold put_obj. destruct (Nat.eqb_spec k i) as [->|Dk]; destruct (Nat.eqb_spec m i) as [->|Dm]; intros E1 E2 P Q.
    + injection E1 as <-. injection E2 as <-. split; [reflexivity|eapply Dj'; eassumption].
    + injection E1 as <-. destruct (Old m om g f b Dm E2 Q P).
    + injection E2 as <-. destruct (Old k ok f g b Dk E1 P Q).
    + eapply J; eassumption.
Qed.

(** *** Steps and programs *)
Definition plain (o : op) : bool := match o with CopyAssign _ _ => false | _ => true end.

Lemma alloc_garbage os h e i o : no_garbage os h -> os i = None -> (forall b c, length h <= b -> nth_error (h ++ e) b = Some (Some c) -> exists f, fptr o f = Some b) ->
  no_garbage (put_obj os i (Some o)) (h ++ e).
Proof.
  intros N Ei A b c Hb. destruct (Nat.lt_ge_cases b (length h)) as [L|L].
  - rewrite nth_error_app1 in Hb by exact L. destruct (N b c Hb) as (k & o' & f & Ek & P). exists k, o', f. split; [|exact P]. unfold put_obj. destruct (Nat.eqb_spec k i); [congruence|exact Ek].
  - destruct (A b c L Hb) as [f P]. exists i, o, f. split; [|exact P]. unfold put_obj. rewrite Nat.eqb_refl. reflexivity.
Qed.

Lemma step_ok os h s o : good os h s -> usable keeps_tables s o ->
  exists os' h', step (os, h) o = HOk (os', h') /\ good os' h' (meaning s o) /\ (plain o = true -> no_garbage os h -> no_garbage os' h').
Proof.
  intros Gd U. destruct o as [i|i mc vb vt vm nb nt ns|i j|i j|i j|i j|i]; cbn [usable step meaning plain] in *.
  - do 2 eexists. split; [reflexivity|]. split.
    + rewrite <- (app_nil_r h). apply good_alloc; [exact Gd|exact U| | |].
      * split; [reflexivity|]. intros [| |]; cbn; (split; [reflexivity|left; split; reflexivity]).
      * intros [| |] b; discriminate.
      * intros [| |] g b; discriminate.
    + intros _ N b c Hb. destruct (N b c Hb) as (k & o' & f & Ek & P). exists k, o', f. split; [|exact P]. unfold put_obj. destruct (Nat.eqb_spec k i) as [->|]; [|exact Ek].
      rewrite (good_none _ _ _ _ Gd U) in Ek. discriminate.
  - destruct U as (U & LB & LT & LM). destruct (load_param_ok h mc vb vt vm nb nt ns LB LT LM) as (o & e & E & R & A & B & C). rewrite E. cbn [hbind]. do 2 eexists. split; [reflexivity|]. split.
    + apply good_alloc; assumption.
    + intros _ N. apply alloc_garbage; [exact N|exact (good_none _ _ _ _ Gd U)|exact C].
  - destruct U as [U1 U2]. destruct (s j) as [v|] eqn:Sj; [|contradiction]. destruct (good_some _ _ _ _ _ Gd Sj) as (rhs & Ej & Rj). unfold obj. rewrite Ej. cbn [hbind].
    destruct (copy_param_ok h rhs v Rj) as (o & e & E & R & A & B & C). rewrite E. cbn [hbind]. do 2 eexists. split; [reflexivity|]. split.
    + apply good_alloc; assumption.
    + intros _ N. apply alloc_garbage; [exact N|exact (good_none _ _ _ _ Gd U1)|exact C].
  - destruct U as [U1 U2]. destruct (s j) as [v|] eqn:Sj; [|contradiction]. destruct (good_some _ _ _ _ _ Gd Sj) as (rhs & Ej & Rj). unfold move_construct, obj. rewrite Ej. cbn [hbind].
    assert (Dij : i <> j) by congruence. destruct (Nat.eqb_spec i j) as [X|_]; [contradiction|]. assert (Ni := good_none _ _ _ _ Gd U1). do 2 eexists. split; [reflexivity|]. destruct Gd as [G J]. split.
    + split.
      * intros k. unfold put_obj, set_value. destruct (Nat.eqb_spec k j) as [->|Dj].
        -- split; [reflexivity|]. intros [| |]; cbn; (split; [reflexivity|left; split; reflexivity]).
        -- destruct (Nat.eqb_spec k i) as [->|Di]; [exact Rj|apply G].
      * assert (Back : forall k o f b, put_obj (put_obj os i (Some rhs)) j (Some empty_param) k = Some o -> fptr o f = Some b ->
                 (k = i /\ o = rhs) \/ (k <> i /\ k <> j /\ os k = Some o)).
        { intros k o f b. unfold put_obj. destruct (Nat.eqb_spec k j) as [->|Dj]; [intros [= <-]; destruct f; discriminate|].
          destruct (Nat.eqb_spec k i) as [->|Di]; [intros [= <-] _; left; split; reflexivity|]. intros E _. right. repeat split; assumption. }
        intros k m f g o o' b E1 E2 P Q. destruct (Back _ _ _ _ E1 P) as [[-> ->]|(Dk & Dk' & E1')]; destruct (Back _ _ _ _ E2 Q) as [[-> ->]|(Dm & Dm' & E2')].
        -- split; [reflexivity|]. apply (J j j f g rhs rhs b Ej Ej P Q).
        -- destruct (J _ _ _ _ _ _ _ Ej E2' P Q). congruence.
        -- destruct (J _ _ _ _ _ _ _ Ej E1' Q P). congruence.
        -- apply (J _ _ _ _ _ _ _ E1' E2' P Q).
    + intros _ N b c Hb. destruct (N b c Hb) as (k & o & f & Ek & P). unfold put_obj. destruct (Nat.eq_dec k j) as [->|Dj].
      * rewrite Ej in Ek. injection Ek as <-. exists i, rhs, f. split; [|exact P]. destruct (Nat.eqb_spec i j); [contradiction|]. rewrite Nat.eqb_refl. reflexivity.
      * exists k, o, f. split; [|exact P]. destruct (Nat.eqb_spec k j); [contradiction|]. destruct (Nat.eqb_spec k i); [congruence|exact Ek].
  - destruct U as (Dij & v & u & Si & Sj & Kp). destruct (copy_assign_ok _ _ _ _ _ _ _ Gd Dij Si Sj Kp) as (os' & h' & E & Gd'). exists os', h'. split; [exact E|]. split; [exact Gd'|discriminate].
  - destruct U.
  - destruct (s i) as [v|] eqn:Si; [|contradiction]. destruct (destroy_ok _ _ _ _ _ Gd Si) as (h' & E & Gd' & N). do 2 eexists. split; [exact E|]. split; [exact Gd'|]. intros _. exact N.
Qed.

Lemma run_good l : forall os h s, good os h s -> usable_all keeps_tables s l ->
  exists os' h', run_ops (os, h) l = HOk (os', h') /\ good os' h' (meaning_of s l) /\ (forallb plain l = true -> no_garbage os h -> no_garbage os' h').
Proof.
  induction l as [|o l IH]; intros os h s Gd U.
  - exists os, h. split; [reflexivity|]. split; [exact Gd|]. intros _ N. exact N.
  - destruct U as [U1 U2]. destruct (step_ok _ _ _ _ Gd U1) as (os1 & h1 & E & Gd1 & N1). destruct (IH _ _ _ Gd1 U2) as (os2 & h2 & E2 & Gd2 & N2).
    exists os2, h2. split; [|split; [exact Gd2|]].
    + unfold run_ops in *. cbn [hfold]. rewrite E. cbn [hbind]. exact E2.
    + cbn [forallb]. intros P N. apply andb_prop in P. destruct P as [P1 P2]. apply N2; [exact P2|]. apply N1; assumption.
Qed.

Lemma start_good : good (fst start) (snd start) nothing.
Proof. split; [intros i; exact I|intros i j f g o o' b E; discriminate]. Qed.

(** *** Reading back *)
Lemma read_ok h p vs : tab h p vs -> forall n i, i + n <= length vs -> read_cells h p i n = HOk (firstn n (skipn i vs)).
Proof.
  intros T. induction n as [|n IH]; intros i L; [reflexivity|]. cbn [read_cells]. rewrite (load_tab _ _ _ _ T) by lia. cbn [hbind]. rewrite IH by lia. cbn [hbind].
  assert (X : skipn i vs = nth i vs 0%Z :: skipn (i + 1) vs).
  { assert (L' : i < length vs) by lia. clear - L'. revert i L'. induction vs as [|v vs IH]; intros [|i] L; cbn in *; try lia; [reflexivity|]. apply IH. lia. }
  rewrite X. reflexivity.
Qed.
Lemma read_all h p vs n : tab h p vs -> length vs = n -> read_cells h p 0 n = HOk vs.
Proof. intros T <-. rewrite (read_ok _ _ _ T) by lia. cbn [skipn]. rewrite firstn_all. reflexivity. Qed.

Lemma show_rep os h i o v : os i = Some o -> rep h o v -> show (os, h) i = HOk v.
Proof.
  intros E [M R]. unfold show, obj. rewrite E. cbn [hbind]. destruct v as [[[mc vb] vt] vm]. destruct (R FB) as [LB TB]. destruct (R FT) as [LT TT]. destruct (R FM) as [LM TM].
  cbn [fval fcnt fptr mom] in *. rewrite (read_all _ _ _ _ TB LB), (read_all _ _ _ _ TT LT), (read_all _ _ _ _ TM LM). cbn [hbind]. rewrite M. reflexivity.
Qed.
Lemma good_shows os h s : good os h s -> shows (os, h) s.
Proof.
  intros Gd i. destruct (s i) as [v|] eqn:S.
  - destruct (good_some _ _ _ _ _ Gd S) as (o & E & R). eapply show_rep; eassumption.
  - unfold show, obj. rewrite (good_none _ _ _ _ Gd S). reflexivity.
Qed.
Lemma show_good os h s i v : good os h s -> show (os, h) i = HOk v -> s i = Some v.
Proof. intros Gd H. assert (X := good_shows _ _ _ Gd i). destruct (s i); rewrite X in H; [injection H as ->; reflexivity|discriminate]. Qed.

Lemma programs_ok l : usable_all keeps_tables nothing l -> exists w, run_ops start l = HOk w /\ shows w (meaning_of nothing l).
Proof. intros U. destruct (run_good l _ _ _ start_good U) as (os & h & E & G & _). exists (os, h). split; [exact E|apply good_shows, G]. Qed.

Lemma never_keeps l s : usable_all never s l -> usable_all keeps_tables s l /\ forallb plain l = true.
Proof.
  revert s. induction l as [|o l IH]; intros s U; [split; [exact I|reflexivity]|]. destruct U as [U1 U2]. destruct (IH _ U2) as [A B].
  cbn [usable_all forallb]. rewrite B. destruct o; cbn [usable plain] in *; try (split; [split; [exact U1|exact A]|reflexivity]).
  destruct U1 as (_ & v & u & _ & _ & []).
Qed.
Lemma no_leak l : usable_all never nothing l -> (forall i, meaning_of nothing l i = None) -> exists w, run_ops start l = HOk w /\ no_block_left w.
Proof.
  intros U Em. destruct (never_keeps _ _ U) as [K P]. destruct (run_good l _ _ _ start_good K) as (os & h & E & G & N). exists (os, h). split; [exact E|].
  intros b c Hb. destruct (N P (fun b c => ltac:(cbn; destruct b; discriminate)) b c Hb) as (i & o & f & Ei & _). rewrite (good_none _ _ _ _ G (Em i)) in Ei. discriminate.
Qed.

(** *** What goes wrong *)
Lemma reach_good w : reachable w -> exists s, good (fst w) (snd w) s.
Proof. intros (l & U & E). destruct (run_good l _ _ _ start_good U) as (os & h & E' & G & _). change (fst start, snd start) with start in E'. rewrite E in E'. injection E' as ->. eexists. exact G. Qed.

Lemma free_inbound h p : (forall b, p = Some b -> b < length h) -> hfree h p = HErr DoubleFree \/
  exists h', hfree h p = HOk h' /\ length h' = length h /\ (forall b, nth_error h b = Some None -> nth_error h' b = Some None) /\
             (forall b, p = Some b -> nth_error h' b = Some None /\ nth_error h b <> Some None).
Proof.
  intros B. destruct p as [b|]; [|right; exists h; repeat split; auto; discriminate]. cbn [hfree]. specialize (B b eq_refl).
  destruct (nth_error h b) as [[c|]|] eqn:E; [|left; reflexivity|apply nth_error_None in E; lia].
  right. exists (replace h b None). split; [reflexivity|]. split; [apply replace_length|]. split.
  - intros b' E'. rewrite replace_nth. destruct (_ && _); [reflexivity|exact E'].
  - intros b' [= <-]. split; [|congruence]. rewrite replace_nth, Nat.eqb_refl, (proj2 (Nat.ltb_lt _ _) B). reflexivity.
Qed.
Lemma destroy_dead os h i o f b : os i = Some o -> (forall g c, fptr o g = Some c -> c < length h) -> fptr o f = Some b -> nth_error h b = Some None ->
  destroy (os, h) i = HErr DoubleFree.
Proof.
  intros E Bd P Q. unfold destroy, obj. rewrite E. cbn [hbind].
  destruct (free_inbound h (basic o) (fun c => Bd FB c)) as [->|(h1 & -> & L1 & S1 & D1)]; [reflexivity|]. cbn [hbind].
  destruct (free_inbound h1 (times o)) as [->|(h2 & -> & L2 & S2 & D2)]; [rewrite L1; exact (fun c => Bd FT c)|reflexivity|]. cbn [hbind].
  destruct (free_inbound h2 (mapping o)) as [->|(h3 & -> & L3 & S3 & D3)]; [rewrite L2, L1; exact (fun c => Bd FM c)|reflexivity|]. exfalso.
  destruct f; [apply (D1 b P)|apply (D2 b P), S1|apply (D3 b P), S2, S1]; exact Q.
Qed.
Lemma destroy_alias os h i o b : os i = Some o -> (forall g c, fptr o g = Some c -> c < length h) -> basic o = Some b -> times o = Some b ->
  destroy (os, h) i = HErr DoubleFree.
Proof.
  intros E Bd P Q. unfold destroy, obj. rewrite E. cbn [hbind].
  destruct (free_inbound h (basic o) (fun c => Bd FB c)) as [->|(h1 & -> & L1 & S1 & D1)]; [reflexivity|]. cbn [hbind].
  destruct (free_inbound h1 (times o)) as [->|(h2 & -> & L2 & S2 & D2)]; [rewrite L1; exact (fun c => Bd FT c)|reflexivity|].
  exfalso. apply (D2 b Q). apply (D1 b P).
Qed.
Lemma tab_some h p vs : tab h p vs -> vs <> [] -> exists b, p = Some b.
Proof. intros [[_ ->]|(b & -> & _)] N; [contradiction|exists b; reflexivity]. Qed.

Lemma fields_of v : (basic_table v <> [] \/ times_table v <> [] \/ mapping_table v <> []) -> exists f, fval v f <> [].
Proof. destruct v as [[[a b] c] d]. intros [H|[H|H]]; [exists FB|exists FT|exists FM]; exact H. Qed.

Lemma self_assign_breaks w i v : reachable w -> show w i = HOk v -> (basic_table v <> [] \/ times_table v <> [] \/ mapping_table v <> []) ->
  exists w', step w (CopyAssign i i) = HOk w' /\ show w' i = HOk no_value /\ step w' (Destroy i) = HErr DoubleFree.
Proof.
  destruct w as [os h]. intros Rw Sh N. destruct (reach_good _ Rw) as [s Gd]. cbn [fst snd] in Gd. assert (Si := show_good _ _ _ _ _ Gd Sh).
  destruct (good_some _ _ _ _ _ Gd Si) as (o & Ei & R). assert (Dj := inj_own _ _ _ (proj2 Gd) Ei). destruct (release_ok h o v R Dj) as (h1 & E1 & L1 & A1 & B1).
  destruct (fields_of v N) as [f Nf]. destruct (tab_some _ _ _ (proj2 (proj2 R f)) Nf) as [b P].
  set (o0 := {| moments_count := 0; basic_count := 0; basic := basic o; times_count := 0; times := times o; scalar_count := 0; mapping := mapping o |}) in *.
  exists (put_obj (put_obj os i (Some o0)) i (Some o0), h1). cbn [step]. split; [|split].
  - unfold copy_assign, obj. rewrite Ei. cbn [hbind]. rewrite E1. cbn [hbind]. unfold put_obj at 1. rewrite Nat.eqb_refl. reflexivity.
  - unfold show, obj, put_obj. rewrite Nat.eqb_refl. reflexivity.
  - apply (destroy_dead _ h1 i o0 f b); [unfold put_obj; rewrite Nat.eqb_refl; reflexivity| | |apply (A1 f b Nf P)].
    + intros g c Q. rewrite L1. apply (good_bound _ _ _ _ _ g c Gd Ei). destruct g; exact Q.
    + destruct f; exact P.
Qed.

Lemma shrink_assign_breaks w i j v u : reachable w -> i <> j -> show w i = HOk v -> show w j = HOk u -> ~ keeps_tables v u ->
  exists w', step w (CopyAssign i j) = HOk w' /\ step w' (Destroy i) = HErr DoubleFree.
Proof.
  destruct w as [os h]. intros Rw Dij Shi Shj N. destruct (reach_good _ Rw) as [s Gd]. cbn [fst snd] in Gd.
  assert (Si := show_good _ _ _ _ _ Gd Shi). assert (Sj := show_good _ _ _ _ _ Gd Shj).
  destruct (good_some _ _ _ _ _ Gd Si) as (o0 & Ei' & R).
  destruct (copy_assign_general _ _ _ _ _ _ _ Gd Dij Si Sj) as (o & o' & os' & h1 & e & Ei & Run & Os & L1 & A1 & B1 & M & Cn & Same & New & Dj'). rewrite Ei in Ei'. injection Ei' as <-.
  assert (F : exists f, fval u f = [] /\ fval v f <> []).
  { assert (Dec : forall l : list Z, l = [] \/ l <> []) by (intros [|x l]; [left; reflexivity|right; discriminate]).
    destruct v as [[[a b] c] d], u as [[[a' b'] c'] d']. cbn in N.
    destruct (Dec b') as [Hb|Hb]; [destruct (Dec b) as [Hb'|Hb']; [|exists FB; split; assumption]|];
    (destruct (Dec c') as [Hc|Hc]; [destruct (Dec c) as [Hc'|Hc']; [|exists FT; split; assumption]|]);
    (destruct (Dec d') as [Hd|Hd]; [destruct (Dec d) as [Hd'|Hd']; [|exists FM; split; assumption]|]); exfalso; apply N; tauto. }
  destruct F as (f & Fu & Fv). destruct (tab_some _ _ _ (proj2 (proj2 R f)) Fv) as [b P].
  exists (os', h1 ++ e). cbn [step]. split; [exact Run|]. apply (destroy_dead _ (h1 ++ e) i o' f b).
  - rewrite Os. unfold put_obj. rewrite Nat.eqb_refl. reflexivity.
  - intros g c Q. rewrite app_length, L1. destruct (fval u g) as [|x l] eqn:Eg.
    + rewrite (Same g Eg) in Q. assert (Bd := good_bound _ _ _ _ _ g c Gd Ei Q). lia.
    + destruct (New g) as [T _]; [congruence|]. assert (Bd := tab_bound _ _ _ c T Q). rewrite app_length, L1 in Bd. exact Bd.
  - rewrite (Same f Fu). exact P.
  - rewrite nth_error_app1; [apply (A1 f b Fv P)|]. rewrite L1. apply (good_bound _ _ _ _ _ f b Gd Ei P).
Qed.

Lemma read_beyond h p vs n : tab h p vs -> vs <> [] -> length vs < n -> read_cells h p 0 n = HErr OutOfBounds.
Proof.
  intros T N L. destruct T as [[_ ->]|(b & -> & E)]; [contradiction|].
  assert (G : forall n i, i <= length vs < i + n -> read_cells h (Some b) i n = HErr OutOfBounds).
  { clear n L. induction n as [|n IH]; intros i Hi; [lia|]. cbn [read_cells]. destruct (Nat.eq_dec i (length vs)) as [->|D].
    - unfold load, block_of. rewrite E. cbn [hbind]. rewrite (proj2 (nth_error_None _ _)); [reflexivity|]. rewrite map_length. lia.
    - rewrite (load_tab h (Some b) vs i); [|right; exists b; split; [reflexivity|exact E]|lia]. cbn [hbind]. rewrite IH by lia. reflexivity. }
  apply G. lia.
Qed.

Lemma move_assign_breaks w i j v u : reachable w -> i <> j -> show w i = HOk v -> show w j = HOk u -> basic_table u <> [] ->
  exists w', step w (MoveAssign i j) = HOk w' /\ show w' j = HOk no_value /\
  show w' i = (if length (times_table u) <=? length (basic_table u)
               then HOk (let '(mc, b, t, m) := u in (mc, b, firstn (length t) b, m)) else HErr OutOfBounds) /\
  step w' (Destroy i) = HErr DoubleFree.
Proof.
  destruct w as [os h]. intros Rw Dij Shi Shj N. destruct (reach_good _ Rw) as [s Gd]. cbn [fst snd] in Gd.
  assert (Si := show_good _ _ _ _ _ Gd Shi). assert (Sj := show_good _ _ _ _ _ Gd Shj).
  destruct (good_some _ _ _ _ _ Gd Si) as (o & Ei & R). destruct (good_some _ _ _ _ _ Gd Sj) as (rhs & Ej & Rj).
  assert (J := proj2 Gd). assert (Dj := inj_own _ _ _ J Ei). destruct (release_ok h o v R Dj) as (h1 & E1 & L1 & A1 & B1).
  assert (Rj1 : rep h1 rhs u). { eapply rep_frame; [|exact Rj]. intros f b P. apply B1. intros g Q. destruct (J _ _ _ _ _ _ _ Ei Ej Q P). contradiction. }
  destruct Rj1 as [M Rj1]. destruct (Rj1 FB) as [LB TB]. destruct (Rj1 FT) as [LT TT]. destruct (Rj1 FM) as [LM TM].
  assert (Bj : forall g c, fptr rhs g = Some c -> c < length h1) by (intros g c Q; rewrite L1; exact (good_bound _ _ _ _ _ g c Gd Ej Q)).
  destruct u as [[[mc vb] vt] vm]. cbn [basic_table times_table fval fcnt fptr mom] in *.
  set (o' := {| moments_count := moments_count rhs; basic_count := basic_count rhs; basic := basic rhs; times_count := times_count rhs; times := basic rhs; scalar_count := scalar_count rhs; mapping := mapping rhs |}).
  exists (put_obj (put_obj os i (Some o')) j (Some empty_param), h1).
  assert (Oi : put_obj (put_obj os i (Some o')) j (Some empty_param) i = Some o').
  { unfold put_obj. destruct (Nat.eqb_spec i j); [contradiction|]. rewrite Nat.eqb_refl. reflexivity. }
  split; [|split; [|split]].
  - cbn [step]. unfold move_assign, obj. rewrite Ei, Ej. cbn [hbind]. destruct (Nat.eqb_spec i j); [contradiction|]. rewrite E1. reflexivity.
  - unfold show, obj, put_obj. rewrite Nat.eqb_refl. reflexivity.
  - unfold show, obj. rewrite Oi. cbn [hbind]. unfold o'. cbn [basic_count basic times_count times scalar_count mapping moments_count].
    rewrite (read_all _ _ _ _ TB LB). cbn [hbind]. rewrite <- LT. destruct (Nat.leb_spec (length vt) (length vb)) as [Le|Gt].
    + rewrite (read_ok _ _ _ TB) by lia. cbn [hbind skipn]. rewrite (read_all _ _ _ _ TM LM). cbn [hbind]. rewrite M. reflexivity.
    + rewrite (read_beyond _ _ _ _ TB N Gt). reflexivity.
  - cbn [step]. destruct (tab_some _ _ _ TB N) as [b P]. apply (destroy_alias _ h1 i o' b Oi); [|exact P|exact P].
    intros g c Q. destruct g; [apply (Bj FB c Q)|apply (Bj FB c Q)|apply (Bj FM c Q)].
Qed.

(** *** Concrete programs *)
Definition ex_prog : list op :=
  [Load 0 5 [0; 0; 0; 0; 0; 1; 0; 0]%Z [0; 0; 1; 1]%Z [0; 1; 2]%Z 2 1 3; New 1; CopyNew 2 0; MoveNew 3 0; CopyAssign 1 3; CopyAssign 2 1].
Lemma ex_prog_usable : usable_all keeps_tables nothing ex_prog.
Proof.
  unfold ex_prog. cbn [usable_all usable]. repeat split; try reflexivity; try discriminate.
  - do 2 eexists. split; [reflexivity|]. split; [reflexivity|]. cbn. repeat split; discriminate.
  - do 2 eexists. split; [reflexivity|]. split; [reflexivity|]. cbn. repeat split; discriminate.
Qed.
Lemma ex_prog_shows : exists w, run_ops start ex_prog = HOk w /\ show w 2 = HOk (5, [0; 0; 0; 0; 0; 1; 0; 0], [0; 0; 1; 1], [0; 1; 2])%Z /\ show w 0 = HOk no_value.
Proof. eexists. split; [vm_compute; reflexivity|]. split; reflexivity. Qed.

Lemma ex_noleak : usable_all never nothing [Load 0 5 [0; 0; 0; 0]%Z [] [0]%Z 1 0 1; CopyNew 1 0; MoveNew 2 1; Destroy 1; Destroy 0; Destroy 2] /\
  forall i, meaning_of nothing [Load 0 5 [0; 0; 0; 0]%Z [] [0]%Z 1 0 1; CopyNew 1 0; MoveNew 2 1; Destroy 1; Destroy 0; Destroy 2] i = None.
Proof.
  split; [cbn [usable_all usable]; repeat split; try reflexivity; discriminate|].
  intros [|[|[|i]]]; reflexivity.
Qed.

(** A copy of an empty object holds blocks of size 0, which a later assignment forgets. *)
Definition ex_leak : list op :=
  [New 0; CopyNew 1 0; Load 2 5 [0; 0; 0; 0]%Z [0; 0; 0; 1]%Z [0]%Z 1 1 1; CopyAssign 1 2; Destroy 0; Destroy 1; Destroy 2].
Lemma ex_leak_ok : usable_all keeps_tables nothing ex_leak /\ (forall i, meaning_of nothing ex_leak i = None) /\
  exists w, run_ops start ex_leak = HOk w /\ ~ no_block_left w.
Proof.
  split; [|split].
  - unfold ex_leak. cbn [usable_all usable]. repeat split; try reflexivity; try discriminate.
    do 2 eexists. split; [reflexivity|]. split; [reflexivity|]. cbn. repeat split; discriminate.
  - intros [|[|[|i]]]; reflexivity.
  - eexists. split; [vm_compute; reflexivity|]. intros N. apply (N 0 []). reflexivity.
Qed.

(** States on which the three failures happen. *)
Lemma ex_breaks : exists w, reachable w /\ show w 0 = HOk (5, [0; 0; 0; 0; 0; 1; 0; 0], [0; 0; 1; 1], [0; 1])%Z /\
  show w 1 = HOk (2, [0; 0; 0; 0], [], [0])%Z /\ ~ keeps_tables (5, [0; 0; 0; 0; 0; 1; 0; 0], [0; 0; 1; 1], [0; 1])%Z (2, [0; 0; 0; 0], [], [0])%Z.
Proof.
  eexists. split.
  - exists [Load 0 5 [0; 0; 0; 0; 0; 1; 0; 0]%Z [0; 0; 1; 1]%Z [0; 1]%Z 2 1 2; Load 1 2 [0; 0; 0; 0]%Z [] [0]%Z 1 0 1]. split; [|vm_compute; reflexivity].
    cbn [usable_all usable]. repeat split; reflexivity.
  - split; [reflexivity|]. split; [reflexivity|]. cbn. intros (_ & X & _). specialize (X eq_refl). discriminate.
Qed.
