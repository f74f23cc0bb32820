(** The input of a force field: rows, columns and what is rejected. *)
From Verif Require Import Arr Vec StructModel SiteIndexModel SeModel NeighModel StatsModel InferModel NeighSpec SeSpec SiteIndexSpec StructSpec InferSpec.
From Verif Require Import StructProofs StructGlue NeighProofs NeighCounts NeighPair NeighGlue NeighReal SeProofs SiteIndexProofs RDeriv InferProofs InferGlue.
From Coq Require Import ZifyBool.
Open Scope nat_scope.

(** *** Values *)
Lemma length_of_vnorm d : length_of d = vnorm d.
Proof. unfold length_of, vnorm. f_equal. ring. Qed.
Lemma py_environment rc rs d : (rs < rc)%R -> (0 < length_of d)%R -> environment rc rs d (py_tilde_row rc rs (vnorm d) d).
Proof.
  intros H Hd. unfold environment. rewrite length_of_vnorm in *. exists (py_s rc rs (vnorm d)). split.
  - split; [intros Hr; apply py_s_near; assumption|]. split; [|intros [_ Hr]; apply py_s_far; assumption].
    intros [H1 H2]. unfold py_s. cbv zeta. destruct (Rlt_dec rs (vnorm d)); [|lra]. destruct (Rlt_dec (vnorm d) rc); [|lra]. destruct (Req_EM_T (vnorm d) 0); [lra|]. field. lra.
  - unfold py_tilde_row. cbv zeta. destruct (Req_EM_T (vnorm d) 0); [lra|]. apply (f_equal2 cons); [reflexivity|]. apply (f_equal2 cons); [field; lra|]. apply (f_equal2 cons); [field; lra|]. apply (f_equal2 cons); [field; lra|reflexivity].
Qed.
Lemma four {X} (l : list X) : length l = 4 -> exists a b c d, l = [a; b; c; d].
Proof. destruct l as [|a [|b [|c [|d [|e l]]]]]; try discriminate. intros _. exists a, b, c, d. reflexivity. Qed.
Lemma norm_row_normalized avg std raw : length avg = 4 -> length std = 4 -> length raw = 4 -> normalized avg std raw (norm_row avg std raw).
Proof.
  intros L1 L2 L3. destruct (four avg L1) as (a0 & a1 & a2 & a3 & ->), (four std L2) as (d0 & d1 & d2 & d3 & ->), (four raw L3) as (x0 & x1 & x2 & x3 & ->).
  split; [reflexivity|]. intros [|[|[|[|a]]]] Ha; [reflexivity|reflexivity|reflexivity|reflexivity|lia].
Qed.
Lemma nth_div k b (l : list R) : nth b (map (fun y => (y / k)%R) l) 0%R = (nth b l 0 / k)%R.
Proof. replace 0%R with (0 / k)%R at 1 by (unfold Rdiv; ring). apply (map_nth (fun y => (y / k)%R)). Qed.
Lemma norm_deriv_entry std t x b : length std = 4 -> length t = 4 -> x < 4 -> entry2 x b (norm_deriv std t) = (entry2 x b t / entry x std)%R.
Proof.
  intros L1 L2 Hx. destruct (four std L1) as (d0 & d1 & d2 & d3 & ->), (four t L2) as (x0 & x1 & x2 & x3 & ->). unfold entry2, entry, norm_deriv. cbn [combine map].
  destruct x as [|[|[|[|x]]]]; [| | | |lia]; cbn [nth fst snd]; apply nth_div.
Qed.
Lemma norm_deriv_zero std x b : length std = 4 -> entry2 x b (norm_deriv std zero43) = 0%R.
Proof.
  intros L. destruct (le_lt_dec 4 x) as [G|Hx].
  - unfold entry2. rewrite (nth_overflow (norm_deriv std zero43)); [destruct b; reflexivity|]. unfold norm_deriv. rewrite map_length, combine_length, L. exact G.
  - rewrite norm_deriv_entry by (try exact L; try reflexivity; exact Hx). replace (entry2 x b zero43) with 0%R; [unfold Rdiv; ring|]. unfold entry2, zero43. destruct x as [|[|[|[|x]]]]; [| | | |lia]; cbn [nth]; destruct b as [|[|[|[|b]]]]; reflexivity.
Qed.
Lemma deriv_slot rc rs avg std n c x b : (rs < rc)%R -> (0 < length_of (vsub n c) < rc)%R -> length std = 4 -> x < 4 -> b < 3 ->
  partial b (fun p => ((entry x (py_tilde_row rc rs (vnorm (vsub n p)) (vsub n p)) - entry x avg) / entry x std)%R) c
    (entry2 x b (norm_deriv std (py_deriv rc rs (vnorm (vsub n c)) (vsub n c)))).
Proof.
  intros H Hd L Hx Hb. rewrite length_of_vnorm in Hd. assert (D := py_move_centre rc rs n c b x H Hd Hx Hb). unfold partial in *.
  rewrite norm_deriv_entry; [|exact L|reflexivity|exact Hx].
  apply (dl_ext (fun t => (/ entry x std * (entry x (py_tilde_row rc rs (vnorm (vsub n (with_coord b c t))) (vsub n (with_coord b c t))) - entry x avg))%R)); [intros t; unfold Rdiv; ring|].
  apply (dl_val _ _ (/ entry x std * (entry2 x b (py_deriv rc rs (vnorm (vsub n c)) (vsub n c)) - 0))%R); [unfold Rdiv; ring|]. apply dl_scal. apply dl_minus; [exact D|apply dl_const].
Qed.

(** *** Rows *)
Section Rows.
Variables (sup : list (Z * vec)) (key : list nat) (rests : list (list nat)) (cs : list (Z * (list R * list R))).
Notation ch c := (chosen vzero sup key rests c).
Notation at_ j := (nth j sup (0%Z, vzero)).
Definition rows_of : list ((Z * (list R * list R)) * (nat * list nat)) := concat (map (fun ce => map (fun pr => (ce, pr)) (ch (fst ce))) cs).
Lemma over_rows {F} (G : Z * (list R * list R) -> nat * list nat -> F) : concat (map (fun ce => map (G ce) (ch (fst ce))) cs) = map (fun cp => G (fst cp) (snd cp)) rows_of.
Proof. unfold rows_of. rewrite concat_map, map_map. f_equal. apply map_ext. intros ce. rewrite map_map. reflexivity. Qed.
Lemma in_rows cp : In cp rows_of -> In (fst cp) cs /\ In (snd cp) (ch (fst (fst cp))).
Proof. unfold rows_of. intros H. apply in_concat in H. destruct H as (l & Hl & H). apply in_map_iff in Hl. destruct Hl as (ce & <- & Ic). apply in_map_iff in H. destruct H as (pr & <- & Ip). split; assumption. Qed.

Lemma forall2_concat {X Y I} (Q : X -> Y -> Prop) (f : I -> list X) (g : I -> list Y) (is : list I) : (forall i, In i is -> Forall2 Q (f i) (g i)) -> Forall2 Q (concat (map f is)) (concat (map g is)).
Proof. induction is as [|i is IH]; intros H; [constructor|]. cbn [map concat]. apply Forall2_app; [apply H; left; reflexivity|apply IH; intros j Hj; apply H; right; exact Hj]. Qed.
Lemma forall2_repeat {X Y} (Q : X -> Y -> Prop) x y n : Q x y -> Forall2 Q (repeat x n) (repeat y n).
Proof. intros H. induction n; constructor; assumption. Qed.
Lemma forall2_map {X Y I} (Q : X -> Y -> Prop) (f : I -> X) (g : I -> Y) (is : list I) : (forall i, In i is -> Q (f i) (g i)) -> Forall2 Q (map f is) (map g is).
Proof. induction is as [|i is IH]; intros H; [constructor|]. cbn [map]. constructor; [apply H; left; reflexivity|apply IH; intros j Hj; apply H; right; exact Hj]. Qed.
Lemma filled_slots {F} (Q : option nat -> F -> Prop) f zero pr zw : (forall j, In j (flt vzero sup (fst zw) (snd pr)) -> Q (Some j) (f pr j)) -> Q None zero ->
  Forall2 Q (filled sup (fun _ j => Some j) None pr zw) (filled sup f zero pr zw).
Proof. intros H1 H2. unfold filled. apply Forall2_app; [apply forall2_map; exact H1|apply forall2_repeat; exact H2]. Qed.
Lemma indexed_slots (Q : option nat -> nat -> Prop) si c pr zw : (forall j, In j (flt vzero sup (fst zw) (snd pr)) -> Q (Some j) (si (snd (at_ j)))) -> Q None (si vzero) -> Q None 0 ->
  length (flt vzero sup (fst zw) (snd pr)) <= real_of vzero sup c (fst zw) (pairs_of key rests) <= snd zw ->
  Forall2 Q (filled sup (fun _ j => Some j) None pr zw) (indexed sup key rests si c pr zw).
Proof.
  intros H1 H2 H3 Hr. unfold filled, indexed. rewrite <- app_assoc. apply Forall2_app; [apply forall2_map; exact H1|].
  replace (snd zw - length (flt vzero sup (fst zw) (snd pr))) with ((real_of vzero sup c (fst zw) (pairs_of key rests) - length (flt vzero sup (fst zw) (snd pr))) + (snd zw - real_of vzero sup c (fst zw) (pairs_of key rests))) by lia.
  rewrite repeat_app. apply Forall2_app; apply forall2_repeat; assumption.
Qed.
End Rows.

(** *** The supercell *)
Lemma supercell_copies A B C s0 s1 s2 (sites sup : list (Z * vec)) : det A B C <> 0%R -> positive_odd s0 -> positive_odd s1 -> positive_odd s2 -> distinct_sites A B C (map snd sites) ->
  make_supercell_ vec (translate_R A B C) s0 s1 s2 true sites = Ok sup -> copies A B C s0 s1 s2 sites sup.
Proof.
  intros Hdet O0 O1 O2 Hd E. split; [exact (proj1 (supercell_nodup A B C Hdet s0 s1 s2 true sites sup O0 O1 O2 Hd E))|].
  destruct (supercell_images A B C s0 s1 s2 sites O0 O1 O2) as (shifts & rest & _ & Nd & Box & Eu).
  set (raw := flat_map (fun t : Z * Z * Z => let '(i, j, k) := t in map (fun s => (fst s, vadd (snd s) (comb A B C (IZR i) (IZR j) (IZR k)))) sites) shifts) in *.
  assert (Pm : Permutation raw sup).
  { unfold make_supercell_ in *. destruct (_ =? _); [|discriminate]. injection Eu as Eu. injection E as E. rewrite Eu in E. subst sup. apply sort_perm. }
  intros a. assert (I : In a sup <-> In a raw) by (split; apply Permutation_in; [apply Permutation_sym|]; exact Pm). rewrite I. unfold raw. rewrite in_flat_map. split.
  - intros ([[p q] r] & Ht & Ha). apply in_map_iff in Ha. destruct Ha as (s & <- & Is). exists s, p, q, r. split; [exact Is|]. split; [apply Box; exact Ht|reflexivity].
  - intros (s & p & q & r & Is & Ht & ->). exists (p, q, r). split; [apply Box; exact Ht|]. apply in_map_iff. exists s. split; [reflexivity|exact Is].
Qed.
Lemma centres_grouped (sup sorted : list (Z * vec)) (idxs : list nat) z : map (nth_error sup) idxs = map Some sorted ->
  map (nth_error sup) (centres_of sup z idxs) = map Some (filter (fun s => (fst s =? z)%Z) sorted).
Proof.
  revert sorted. induction idxs as [|c idxs IH]; intros [|s sorted] E; try discriminate; [reflexivity|]. cbn [map] in E. injection E as E1 E2. unfold centres_of in *. cbn [filter]. rewrite E1.
  destruct (fst s =? z)%Z; cbn [map]; rewrite IH with (sorted := sorted) by exact E2; [rewrite E1|]; reflexivity.
Qed.
Lemma mapM_first {X Y} (f : X -> result Y) e (l : list X) : (forall x, In x l -> (exists y, f x = Ok y) \/ f x = Err e) -> (exists x, In x l /\ f x = Err e) -> mapM f l = Err e.
Proof.
  induction l as [|x l IH]; intros H (y & Iy & Hy); [destruct Iy|]. cbn [mapM]. destruct (H x (or_introl eq_refl)) as [(v & Hv)|Hx]; [|rewrite Hx; reflexivity]. rewrite Hv. cbn [bind].
  destruct Iy as [<-|Iy]; [congruence|]. rewrite IH; [reflexivity|intros z Iz; apply H; right; exact Iz|exists y; split; assumption].
Qed.
Lemma forall2_in_combine {X Y} (Q : X -> Y -> Prop) a b p : Forall2 Q a b -> In p (combine a b) -> Q (fst p) (snd p).
Proof. intros F. induction F as [|x y a b H F IH]; [intros []|]. intros [<-|I]; [exact H|exact (IH I)]. Qed.
