(** Programs over objects of a class whose operations are known to be right one by one. *)
From Coq Require Import Permutation.
From Verif Require Import HeapProofs RadModel RadSpec RadHeap.
Local Open Scope nat_scope.
Local Open Scope list_scope.

Section Lists.
Context {A : Type}.
Lemma concat_replace (l : list (list A)) x a : x < length l -> Permutation (concat (replace l x a)) (a ++ concat (replace l x [])).
Proof.
  revert x. induction l as [|b l IH]; intros x L; [cbn in L; lia|]. destruct x as [|x]; cbn [replace concat]; [reflexivity|].
  cbn in L. rewrite IH by lia. rewrite !app_assoc. apply Permutation_app_tail, Permutation_app_comm.
Qed.
Lemma replace_self {B} (l : list B) x a : nth_error l x = Some a -> replace l x a = l.
Proof. revert x. induction l as [|b l IH]; intros [|x] E; try discriminate; cbn in *; [congruence|]. now rewrite IH. Qed.
Lemma concat_at (l : list (list A)) x a : nth_error l x = Some a -> Permutation (concat l) (a ++ concat (replace l x [])).
Proof.
  intros E. rewrite <- (replace_self l x a E) at 1. apply concat_replace. apply nth_error_Some. congruence.
Qed.
Lemma replace_swap {B} (l : list B) x y a b : x <> y -> replace (replace l x a) y b = replace (replace l y b) x a.
Proof. revert x y. induction l as [|c l IH]; intros [|x] [|y] D; cbn; try congruence. f_equal. apply IH. congruence. Qed.
Lemma replace_twice {B} (l : list B) x a b : replace (replace l x a) x b = replace l x b.
Proof. revert x. induction l as [|c l IH]; intros [|x]; cbn; try congruence; f_equal; apply IH. Qed.
End Lists.

Section Programs.
Context {V O : Type}.
Variable C : class V O.
Variable first : held V.
Variable can_build : V -> V -> V -> bool.
Variable k : nat.
Variable shown : option (held V) -> hres (view V).
Variable rep : held V -> O -> memory V -> list nat -> Prop.
Implicit Types h : memory V.
Hypothesis rep_blocks : forall v o h bs, rep v o h bs -> length bs = match v with Full _ _ _ _ _ => k | _ => 0 end.
Hypothesis rep_frame : forall v o h h' bs, rep v o h bs -> (forall b, In b bs -> nth_error h' b = nth_error h b) -> rep v o h' bs.
Hypothesis H_default : forall h, rep first (c_default V O C) h [].
Hypothesis H_first : match first with Full _ _ _ _ _ => False | _ => True end.
Hypothesis H_make : forall n hi lo h, n <> 0 -> exists o h' bs, c_make V O C n hi lo h = HOk (o, h') /\ to h h' [] bs /\ rep (Full V n hi lo None) o h' bs.
Hypothesis H_copy : forall n hi lo r o h B, rep (Full V n hi lo r) o h B -> has h B ->
  exists o' h' bs, c_copy V O C o h = HOk (o', h') /\ to h h' [] bs /\ rep (Full V n hi lo r) o' h' bs.
Hypothesis H_move : forall n hi lo r o h B, rep (Full V n hi lo r) o h B -> has h B ->
  exists o' w h' bs, c_move V O C o h = HOk (o', w, h') /\ to h h' B bs /\ rep (Full V n hi lo r) o' h' bs /\ rep (Empty V) w h' [].
Hypothesis H_assign : forall v t n hi lo r o h A B, rep v t h A -> rep (Full V n hi lo r) o h B -> has h (A ++ B) ->
  exists o' h' bs, c_assign V O C t (Some o) h = HOk (o', h') /\ to h h' A bs /\ rep (Full V n hi lo r) o' h' bs.
Hypothesis H_move_assign : forall v t n hi lo r o h A B, rep v t h A -> rep (Full V n hi lo r) o h B -> has h (A ++ B) ->
  exists o' w h' bs, c_move_assign V O C t o h = HOk (o', w, h') /\ to h h' (A ++ B) bs /\ rep (Full V n hi lo r) o' h' bs /\ rep (Empty V) w h' [].
Hypothesis H_build : forall n hi lo q o h A r, rep (Full V n hi lo q) o h A -> has h A -> can_build hi lo r = true ->
  exists o' h' bs, c_build V O C o r h = HOk (o', h') /\ to h h' A bs /\ rep (Full V n hi lo (Some r)) o' h' bs.
Hypothesis H_destroy : forall v o h A, rep v o h A -> has h A -> v <> Raw V -> exists h', c_destroy V O C o h = HOk h' /\ to h h' A [].
Hypothesis H_look : forall v o h A, rep v o h A -> c_look V O C o h = shown (Some v).
Hypothesis H_none : shown None = HErr NoObject.

Definition cell_ok h (v : option (held V)) (o : option O) (bs : list nat) : Prop :=
  match v, o with Some v, Some o => rep v o h bs | None, None => bs = [] | _, _ => False end.
Definition at_ok h (v : option (option (held V))) (o : option (option O)) (bs : option (list nat)) : Prop :=
  match v, o, bs with Some v, Some o, Some bs => cell_ok h v o bs | None, None, None => True | _, _, _ => False end.
Definition inv (s : state V O) (vs : values V) (bl : list (list nat)) : Prop :=
  (forall x, at_ok (snd s) (nth_error vs x) (nth_error (fst s) x) (nth_error bl x)) /\ Permutation (live (snd s)) (concat bl).

Lemma cell_frame h h' v o bs : cell_ok h v o bs -> (forall b, In b bs -> nth_error h' b = nth_error h b) -> cell_ok h' v o bs.
Proof. unfold cell_ok. destruct v, o; auto. apply rep_frame. Qed.
Lemma in_concat_other (bl : list (list nat)) x z bs b : z <> x -> nth_error bl z = Some bs -> In b bs -> In b (concat (replace bl x [])).
Proof.
  intros D E Hb. apply in_concat. exists bs. split; auto. apply nth_error_In with z. rewrite replace_nth. apply Nat.eqb_neq in D. now rewrite D.
Qed.
Lemma lens s vs bl x : inv s vs bl -> (x < length vs <-> x < length (fst s)) /\ (x < length vs <-> x < length bl).
Proof.
  intros (I & _). specialize (I x). rewrite <- !nth_error_Some. unfold at_ok in I.
  destruct (nth_error vs x), (nth_error (fst s) x), (nth_error bl x); try tauto; split; split; congruence.
Qed.
Lemma update_one s vs bl x A h' v o A' : inv s vs bl -> nth_error bl x = Some A -> to (snd s) h' A A' -> cell_ok h' v o A' ->
  inv (replace (fst s) x o, h') (replace vs x v) (replace bl x A').
Proof.
  intros I Ex T Ok. pose proof (lens s vs bl x I) as (L1 & L2). destruct I as (I & P). pose proof (concat_at bl x A Ex) as PA. rewrite PA in P. destruct (T _ P) as (P' & Fr).
  assert (x < length bl) as Lb by (apply nth_error_Some; congruence). split; cbn [fst snd].
  - intros z. specialize (I z). destruct (Nat.eq_dec z x) as [->|D].
    + rewrite !nth_replace_same by tauto. exact Ok.
    + rewrite !nth_replace_other by auto. unfold at_ok in *. destruct (nth_error vs z), (nth_error (fst s) z), (nth_error bl z) as [bs|] eqn:Eb; auto.
      eapply cell_frame; eauto. intros b Hb. apply Fr. eapply in_concat_other; eauto.
  - rewrite P'. symmetry. now apply concat_replace.
Qed.
Lemma update_two s vs bl x y A B h' v o A' w p B' : x <> y -> inv s vs bl -> nth_error bl x = Some A -> nth_error bl y = Some B ->
  to (snd s) h' (A ++ B) (A' ++ B') -> cell_ok h' v o A' -> cell_ok h' w p B' ->
  inv (replace (replace (fst s) x o) y p, h') (replace (replace vs x v) y w) (replace (replace bl x A') y B').
Proof.
  intros D I Ex Ey T Ok1 Ok2. pose proof (lens s vs bl x I) as (L1 & L2). pose proof (lens s vs bl y I) as (M1 & M2). destruct I as (I & P).
  assert (x < length bl) as Lx by (apply nth_error_Some; congruence). assert (y < length bl) as Ly by (apply nth_error_Some; congruence).
  assert (Permutation (live (snd s)) ((A ++ B) ++ concat (replace (replace bl x []) y []))) as P1.
  { rewrite P, (concat_at bl x A Ex), <- app_assoc. apply Permutation_app_head. apply concat_at. rewrite nth_replace_other by auto. exact Ey. }
  destruct (T _ P1) as (P' & Fr). split; cbn [fst snd].
  - intros z. specialize (I z). destruct (Nat.eq_dec z y) as [->|Dy]; [|destruct (Nat.eq_dec z x) as [->|Dx]].
    + rewrite !nth_replace_same by (rewrite ?replace_length; tauto). exact Ok2.
    + rewrite !(nth_replace_other _ y) by auto. rewrite !nth_replace_same by tauto. exact Ok1.
    + rewrite !nth_replace_other by auto. unfold at_ok in *. destruct (nth_error vs z), (nth_error (fst s) z), (nth_error bl z) as [bs|] eqn:Eb; auto.
      eapply cell_frame; eauto. intros b Hb. apply Fr. apply (in_concat_other _ y z bs); auto. rewrite nth_replace_other by auto. exact Eb.
  - rewrite P'. rewrite (concat_replace _ y B') by (now rewrite replace_length). rewrite (replace_swap bl x y A' []) by auto. rewrite (concat_replace (replace bl y []) x A') by (now rewrite replace_length).
    rewrite (replace_swap bl y x [] []) by auto. rewrite !app_assoc. apply Permutation_app_tail, Permutation_app_comm.
Qed.
Lemma free_cell s vs bl x : inv s vs bl -> is_free V vs x = true -> vacant V O s x = HOk tt /\ nth_error bl x = Some [].
Proof.
  intros (I & _). specialize (I x). unfold is_free, vacant, at_ok, cell_ok in *. destruct (nth_error vs x) as [[v|]|]; try discriminate.
  destruct (nth_error (fst s) x) as [[o|]|], (nth_error bl x); try easy. now subst.
Qed.
Lemma full_cell s vs bl x v : inv s vs bl -> holds V vs x = Some v -> exists o A, object V O s x = HOk o /\ nth_error bl x = Some A /\ rep v o (snd s) A /\ nth_error vs x = Some (Some v).
Proof.
  intros (I & _). specialize (I x). unfold holds, object, at_ok, cell_ok in *. destruct (nth_error vs x) as [[w|]|]; try discriminate. intros [= ->].
  destruct (nth_error (fst s) x) as [[o|]|], (nth_error bl x) as [A|]; try easy. exists o, A. auto.
Qed.
Lemma inv_has s vs bl x A : inv s vs bl -> nth_error bl x = Some A -> has (snd s) A.
Proof. intros (_ & P) E. exists (concat (replace bl x [])). rewrite P. now apply concat_at. Qed.
Lemma inv_has2 s vs bl x y A B : x <> y -> inv s vs bl -> nth_error bl x = Some A -> nth_error bl y = Some B -> has (snd s) (A ++ B).
Proof.
  intros D (_ & P) Ex Ey. exists (concat (replace (replace bl x []) y [])). rewrite P, (concat_at bl x A Ex), <- app_assoc. apply Permutation_app_head. apply concat_at.
  rewrite nth_replace_other by auto. exact Ey.
Qed.

Lemma step_ok c s vs bl vs' : inv s vs bl -> meaning V first can_build c vs = Some vs' -> exists s' bl', step V O C c s = HOk s' /\ inv s' vs' bl'.
Proof.
  intros I M. destruct c as [x|x n hi lo|x y|x y|x y|x y|x r|x]; cbn [meaning step] in *.
  - destruct (is_free V vs x) eqn:F; [|discriminate]. injection M as <-. destruct (free_cell _ _ _ _ I F) as (-> & Eb). cbn [hbind]. eexists _, _. split; [reflexivity|].
    apply (update_one s vs bl x [] (snd s) (Some first) (Some (c_default V O C)) []); auto. apply to_refl. apply H_default.
  - destruct (is_free V vs x) eqn:F; [|discriminate]. destruct (free_cell _ _ _ _ I F) as (-> & Eb). cbn [hbind]. destruct n as [|n]; [discriminate|]. injection M as <-.
    destruct (H_make (S n) hi lo (snd s)) as (o & h' & bs & -> & T & R); [lia|]. cbn [hbind]. eexists _, _. split; [reflexivity|]. eapply update_one; eauto.
  - destruct (is_free V vs x) eqn:F; [|discriminate]. destruct (free_cell _ _ _ _ I F) as (-> & Eb). cbn [hbind]. destruct (holds V vs y) as [[| |n hi lo r]|] eqn:Hy; try discriminate. injection M as <-.
    destruct (full_cell _ _ _ _ _ I Hy) as (o & B & -> & EB & R & _). cbn [hbind]. destruct (H_copy _ _ _ _ _ _ _ R (inv_has _ _ _ _ _ I EB)) as (o' & h' & bs & -> & T & R'). cbn [hbind].
    eexists _, _. split; [reflexivity|]. eapply update_one; eauto.
  - destruct (is_free V vs x) eqn:F; [|discriminate]. destruct (free_cell _ _ _ _ I F) as (-> & Eb). cbn [hbind]. destruct (holds V vs y) as [[| |n hi lo r]|] eqn:Hy; try discriminate. injection M as <-.
    destruct (full_cell _ _ _ _ _ I Hy) as (o & B & -> & EB & R & Ey). cbn [hbind]. destruct (H_move _ _ _ _ _ _ _ R (inv_has _ _ _ _ _ I EB)) as (o' & w & h' & bs & -> & T & R' & W). cbn [hbind].
    assert (x <> y) as D by (intros <-; unfold is_free in F; rewrite Ey in F; discriminate).
    eexists _, _. split; [reflexivity|]. unfold put. apply (update_two s vs bl x y [] B h' (Some (Full V n hi lo r)) (Some o') bs (Some (Empty V)) (Some w) []); auto.
    rewrite app_nil_r. exact T.
  - destruct (holds V vs x) as [v|] eqn:Hx; [|discriminate]. destruct (full_cell _ _ _ _ _ I Hx) as (t & A & -> & EA & RA & Ex). cbn [hbind].
    destruct (holds V vs y) as [[| |n hi lo r]|] eqn:Hy; try discriminate. destruct (full_cell _ _ _ _ _ I Hy) as (o & B & -> & EB & RB & Ey). cbn [hbind].
    destruct (Nat.eqb_spec x y) as [E|D]; [discriminate|]. injection M as <-.
    destruct (H_assign _ _ _ _ _ _ _ _ _ _ RA RB (inv_has2 _ _ _ _ _ _ _ D I EA EB)) as (o' & h' & bs & -> & T & R'). cbn [hbind]. eexists _, _. split; [reflexivity|]. eapply update_one; eauto.
  - destruct (holds V vs x) as [v|] eqn:Hx; [|discriminate]. destruct (full_cell _ _ _ _ _ I Hx) as (t & A & -> & EA & RA & Ex). cbn [hbind].
    destruct (holds V vs y) as [[| |n hi lo r]|] eqn:Hy; try discriminate. destruct (full_cell _ _ _ _ _ I Hy) as (o & B & -> & EB & RB & Ey). cbn [hbind].
    destruct (Nat.eqb_spec x y) as [E|D]; [injection M as <-; eauto|]. injection M as <-.
    destruct (H_move_assign _ _ _ _ _ _ _ _ _ _ RA RB (inv_has2 _ _ _ _ _ _ _ D I EA EB)) as (o' & w & h' & bs & -> & T & R' & W). cbn [hbind]. eexists _, _. split; [reflexivity|].
    unfold put. apply (update_two s vs bl x y A B h' (Some (Full V n hi lo r)) (Some o') bs (Some (Empty V)) (Some w) []); auto. rewrite app_nil_r. exact T.
  - destruct (holds V vs x) as [[| |n hi lo q]|] eqn:Hx; try discriminate. destruct (full_cell _ _ _ _ _ I Hx) as (t & A & -> & EA & RA & Ex). cbn [hbind].
    destruct (can_build hi lo r) eqn:Cb; [|discriminate]. injection M as <-.
    destruct (H_build _ _ _ _ _ _ _ r RA (inv_has _ _ _ _ _ I EA) Cb) as (o' & h' & bs & -> & T & R'). cbn [hbind]. eexists _, _. split; [reflexivity|]. eapply update_one; eauto.
  - destruct (holds V vs x) as [v|] eqn:Hx; [|discriminate]. destruct (full_cell _ _ _ _ _ I Hx) as (t & A & -> & EA & RA & Ex). cbn [hbind].
    assert (v <> Raw V /\ vs' = replace vs x None) as (Nr & ->) by (destruct v; try discriminate; split; congruence).
    destruct (H_destroy _ _ _ _ RA (inv_has _ _ _ _ _ I EA) Nr) as (h' & -> & T). cbn [hbind]. eexists _, _. split; [reflexivity|].
    apply (update_one s vs bl x A h' None None []); auto. reflexivity.
Qed.
Lemma run_ok l : forall s vs bl vs', inv s vs bl -> meaning_all V first can_build l vs = Some vs' -> exists s' bl', run V O C l s = HOk s' /\ inv s' vs' bl'.
Proof.
  induction l as [|c l IH]; intros s vs bl vs' I M; cbn [meaning_all run] in *; [injection M as <-; eauto|].
  destruct (meaning V first can_build c vs) as [vs1|] eqn:E; [|discriminate]. destruct (step_ok _ _ _ _ _ I E) as (s1 & bl1 & -> & I1). cbn [hbind]. eauto.
Qed.
Lemma start_inv n : inv (start V O n) (repeat None n) (repeat [] n).
Proof.
  split; cbn [start fst snd].
  - intros x. destruct (Nat.lt_ge_cases x n) as [L|L].
    + rewrite !nth_error_repeat by auto. reflexivity.
    + rewrite !(proj2 (nth_error_None _ _)) by (rewrite repeat_length; auto). exact I.
  - replace (concat (repeat [] n)) with (@nil nat); [reflexivity|]. induction n; auto.
Qed.
Lemma inv_seen s vs bl x : inv s vs bl -> seen V O C s x = shown (holds V vs x).
Proof.
  intros (I & _). specialize (I x). unfold seen, object, holds, at_ok, cell_ok in *.
  destruct (nth_error vs x) as [[v|]|], (nth_error (fst s) x) as [[o|]|], (nth_error bl x); try easy; cbn [hbind]; eauto.
Qed.
Lemma inv_use s vs bl : inv s vs bl -> in_use V (snd s) = needed V k vs.
Proof.
  intros (I & P). rewrite in_use_live, P. clear P. unfold needed.
  assert (map (@length nat) bl = map (fun v => match v with Some (Full _ _ _ _ _) => k | _ => 0 end) vs) as E.
  { destruct s as [os h]. cbn [fst snd] in I. revert os bl I. induction vs as [|v vs IH]; intros os bl I.
    - pose proof (I 0) as I0. destruct bl; [reflexivity|]. destruct os; cbn in I0; easy.
    - pose proof (I 0) as I0. destruct os as [|o os]; [easy|]. destruct bl as [|bs bl]; [easy|]. cbn in I0 |- *. f_equal.
      + unfold cell_ok in I0. destruct v as [v|], o as [o|]; try easy; [|now subst]. apply rep_blocks in I0. now destruct v.
      + apply (IH os). intros x. apply (I (S x)). }
  rewrite <- E. clear. induction bl as [|b bl IH]; [reflexivity|]. cbn. now rewrite app_length, IH.
Qed.

Theorem programs n l vs : meaning_all V first can_build l (repeat None n) = Some vs ->
  exists s, (run V O C l (start V O n) = HOk s /\ (forall x, seen V O C s x = shown (holds V vs x)) /\ in_use V (snd s) = needed V k vs) /\ exists bl, inv s vs bl.
Proof.
  intros M. destruct (run_ok l _ _ _ _ (start_inv n) M) as (s & bl & E & I). exists s. split; [|eauto]. split; auto. split; [intros x; eapply inv_seen; eauto|eapply inv_use; eauto].
Qed.
End Programs.

Lemma run_app {V O} (C : class V O) l m s : run V O C (l ++ m) s = hbind (run V O C l s) (run V O C m).
Proof. revert s. induction l as [|c l IH]; intros s; cbn [app run]; [reflexivity|]. destruct (step V O C c s); cbn [hbind]; auto. Qed.
Lemma meaning_all_app {V} first cb (l m : list (command V)) vs :
  meaning_all V first cb (l ++ m) vs = match meaning_all V first cb l vs with Some vs => meaning_all V first cb m vs | None => None end.
Proof. revert vs. induction l as [|c l IH]; intros vs; cbn [app meaning_all]; [reflexivity|]. destruct (meaning V first cb c vs); auto. Qed.
Lemma holds_replace {V} (vs : values V) x v z : z <> x -> holds V (replace vs x v) z = holds V vs z.
Proof. intros D. unfold holds. rewrite replace_nth. apply Nat.eqb_neq in D. now rewrite D. Qed.
Lemma meaning_other {V} first cb (c : command V) vs vs' z : meaning V first cb c vs = Some vs' -> ~ touches c z -> holds V vs' z = holds V vs z.
Proof.
  destruct c as [x|x n hi lo|x y|x y|x y|x y|x r|x]; cbn [meaning touches]; intros M N;
    repeat match type of M with context [match ?e with _ => _ end] => destruct e eqn:?; try discriminate end;
    try (injection M as <-); rewrite ?holds_replace by tauto; reflexivity.
Qed.
