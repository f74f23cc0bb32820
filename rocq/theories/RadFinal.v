(** What programs over radial functions do, and which programs go wrong. *)
From Coq Require Import Permutation.
From Verif Require Import HeapProofs RadNum RadModel RadSpec RadHeap RadProg RadObj RadQ.
Local Open Scope nat_scope.
Local Open Scope list_scope.

(** *** Commands that touch other variables only *)
Lemma untouched {V O} (C : class V O) first cb k shown n l c vs' s s' z :
  (forall n l vs, meaning_all V first cb l (repeat None n) = Some vs ->
     exists s, run V O C l (start V O n) = HOk s /\ (forall x, seen V O C s x = shown (holds V vs x)) /\ in_use V (snd s) = needed V k vs) ->
  meaning_all V first cb (l ++ [c]) (repeat None n) = Some vs' -> run V O C l (start V O n) = HOk s -> run V O C (l ++ [c]) (start V O n) = HOk s' -> ~ touches c z ->
  seen V O C s' z = seen V O C s z.
Proof.
  intros P M E E' N. pose proof M as M'. rewrite meaning_all_app in M. destruct (meaning_all V first cb l (repeat None n)) as [vs|] eqn:El; [|discriminate].
  cbn [meaning_all] in M. destruct (meaning V first cb c vs) as [vs1|] eqn:Ec; [|discriminate]. injection M as ->.
  destruct (P n l vs El) as (s1 & E1 & S1 & _). destruct (P n _ _ M') as (s2 & E2 & S2 & _). rewrite E in E1. injection E1 as <-. rewrite E' in E2. injection E2 as <-.
  rewrite S1, S2. now rewrite (meaning_other _ _ _ _ _ _ Ec N).
Qed.
Lemma needed_none {V} k (vs : values V) : Forall (fun v => v = None \/ v = Some (Empty V) \/ v = Some (Raw V)) vs -> needed V k vs = 0.
Proof. unfold needed. induction 1 as [|v vs E F IH]; [reflexivity|]. cbn [map list_sum fold_right] in *. unfold list_sum in *. rewrite IH. now destruct E as [->|[->| ->]]. Qed.

(** *** After a program that has a meaning *)
Section Prefix.
Context {V : Type}.
Implicit Types h : memory V.
Lemma release_length h p h' : release V h p = HOk h' -> length h' = length h.
Proof. unfold release. destruct p as [| |b]; try discriminate; [now intros [= <-]|]. destruct (nth_error h b) as [[c|]|]; try discriminate. intros [= <-]. apply replace_length. Qed.
Lemma release_all_length ps : forall h h', release_all V ps h = HOk h' -> length h' = length h.
Proof.
  unfold release_all. induction ps as [|p ps IH]; intros h h' E; cbn [hfold] in E; [now injection E as <-|]. destruct (release V h p) as [h1|] eqn:E1; [|discriminate]. cbn [hbind] in E.
  rewrite (IH _ _ E). eapply release_length; eauto.
Qed.
Lemma freed_twice h h' A b : has h A -> In b A -> to h h' A [] -> length h' = length h -> release V h' (At b) = HErr DoubleFree.
Proof.
  intros H Hb T L. pose proof (has_alive _ _ _ H Hb) as Al. apply alive_lt in Al. destruct H as (R & P). pose proof (Permutation_NoDup P (live_nodup h)) as N. destruct (T R P) as (P' & _). cbn [app] in P'.
  assert (~ In b R) as Nb.
  { clear - N Hb. induction A as [|a A IH]; [easy|]. cbn in N. inversion N as [|? ? Na NA]; subst. destruct Hb as [->|Hb]; [intros Hr; apply Na, in_or_app; auto|auto]. }
  assert (alive h' b = false) as D. { destruct (alive h' b) eqn:E; auto. apply in_live in E. rewrite P' in E. tauto. }
  unfold release, alive in *. rewrite <- L in Al. apply nth_error_Some in Al. destruct (nth_error h' b) as [[c|]|]; congruence.
Qed.
End Prefix.

Section Numbers.
Context {V : Type}.
Variables zero one : V.
Variable vnext : V -> V -> V -> V.
Variable dnext : V -> V -> V -> V -> V.
Variables mul add : V -> V -> V.
Variable scaled : V -> V -> V -> V.
Variable coeff : V -> V -> V.
Variables inside accepted : V -> V -> V -> bool.
Variables factor slope : V -> V -> V -> V.
Implicit Types h : memory V.
Notation polynomials := (polynomials V zero one vnext dnext mul scaled coeff).
Notation cut_polynomials := (cut_polynomials V zero one vnext dnext mul scaled coeff inside).
Notation poly_class := (poly_class V zero one vnext dnext mul scaled coeff inside).
Notation rb_class := (rb_class V zero one vnext dnext mul scaled coeff accepted).
Notation q_class := (q_class V zero one vnext dnext mul add scaled coeff inside factor slope).
Notation rq_class := (rq_class V zero one vnext dnext mul add scaled coeff accepted factor slope).
Notation rep_p := (rep_b zero cut_polynomials).
Notation rep_r := (rep_b zero polynomials).
Notation repq := (rep_q zero one vnext dnext mul add scaled coeff inside factor slope).
Notation reprq := (rep_rq zero one vnext dnext mul add scaled coeff factor slope).
Notation all := (fun _ _ _ => true).

Lemma with_object {O} (rep : held V -> O -> memory V -> list nat -> Prop) s vs bl x v : inv rep s vs bl -> holds V vs x = Some v ->
  exists o A, object V O s x = HOk o /\ rep v o (snd s) A /\ has (snd s) A.
Proof. intros I E. destruct (full_cell _ _ _ _ _ _ I E) as (o & A & E1 & E2 & R & _). exists o, A. split; auto. split; auto. eapply inv_has; eauto. Qed.

(** *** A new [MtpQ] cannot be destroyed *)
Lemma q_raw_breaks n l vs x : meaning_all V (Raw V) all l (repeat None n) = Some vs -> holds V vs x = Some (Raw V) ->
  run V _ q_class (l ++ [Destroy V x]) (start V _ n) = HErr Uninitialised.
Proof.
  intros M E. destruct (q_all zero one vnext dnext mul add scaled coeff inside factor slope n l vs M) as (s & (Er & _) & bl & I).
  rewrite run_app, Er. cbn [hbind run step]. destruct (with_object _ _ _ _ _ _ I E) as (o & A & -> & (_ & ->) & _). reflexivity.
Qed.

(** *** Assignment to itself *)
Lemma seen_put {O} (C : class V O) (s : state V O) x o o' h : object V O s x = HOk o -> seen V O C (put O (fst s) x o', h) x = c_look V O C o' h.
Proof.
  intros E. unfold seen, object, put in *. cbn [fst snd]. rewrite replace_nth, Nat.eqb_refl.
  assert (x < length (fst s)) as L. { apply nth_error_Some. destruct (nth_error (fst s) x); congruence. }
  apply Nat.ltb_lt in L. rewrite L. reflexivity.
Qed.
Lemma copy_none h : exists h' ps, alloc_all V 3 0 h = (ps, h') /\ forall qs, copy_cells V 0 ps qs h' = HOk h'.
Proof. rewrite alloc_all_eq. eexists _, _. split; reflexivity. Qed.
Lemma poly_self n l vs x m hi lo q : meaning_all V (Empty V) all l (repeat None n) = Some vs -> holds V vs x = Some (Full V m hi lo q) ->
  exists s, run V _ poly_class (l ++ [Assign V x x]) (start V _ n) = HOk s /\ seen V _ poly_class s x = HOk (0, [], []).
Proof.
  intros M E. destruct (poly_all zero one vnext dnext mul scaled coeff inside n l vs M) as (s & (Er & _) & bl & I).
  rewrite run_app, Er. cbn [hbind run step]. destruct (with_object _ _ _ _ _ _ I E) as (o & A & Eo & R & H). rewrite Eo. cbn [hbind]. rewrite Nat.eqb_refl. cbn [c_assign RadModel.poly_class].
  unfold assign_poly. destruct (drop_ok zero _ _ _ _ _ R H) as (h1 & -> & _). cbn [hbind]. destruct R as (N & L & -> & _). cbn [b_n with_arrays]. apply Nat.eqb_neq in N. rewrite N.
  unfold copy_poly. cbn [b_n with_arrays]. destruct (copy_none h1) as (h2 & ps & -> & Ec). rewrite Ec. cbn [hbind]. eexists. split; [reflexivity|]. rewrite (seen_put _ _ _ _ _ _ Eo). reflexivity.
Qed.
Lemma q_self n l vs x m hi lo q : meaning_all V (Raw V) all l (repeat None n) = Some vs -> holds V vs x = Some (Full V m hi lo q) ->
  exists s, run V _ q_class (l ++ [Assign V x x]) (start V _ n) = HOk s /\ seen V _ q_class s x = HOk (0, [], []).
Proof.
  intros M E. destruct (q_all zero one vnext dnext mul add scaled coeff inside factor slope n l vs M) as (s & (Er & _) & bl & I).
  rewrite run_app, Er. cbn [hbind run step]. destruct (with_object _ _ _ _ _ _ I E) as (o & A & Eo & R & H). rewrite Eo. cbn [hbind]. rewrite Nat.eqb_refl. cbn [c_assign RadModel.q_class].
  unfold assign_q. destruct (drop_q_ok _ _ _ _ _ _ _ _ _ _ _ _ _ _ _ R H) as (h1 & A1 & w & -> & T1 & R1). cbn [hbind option_map q_poly].
  unfold assign_poly. destruct (drop_ok zero _ _ _ _ _ R1 (has_to _ _ _ _ H T1)) as (h2 & -> & _). cbn [hbind]. destruct R as (N & ps & cs & p & -> & (L & -> & _) & _ & -> & _). cbn [q_poly q_of b_n with_arrays].
  apply Nat.eqb_neq in N. rewrite N. unfold copy_poly. cbn [b_n with_arrays]. destruct (copy_none h2) as (h3 & ps' & -> & Ec). rewrite Ec. cbn [hbind].
  unfold copy_q_into. cbn [q_n]. rewrite alloc_all_eq. cbn [copy_cells seq hfold hbind]. eexists. split; [reflexivity|]. rewrite (seen_put _ _ _ _ _ _ Eo). reflexivity.
Qed.
Lemma rq_self n l vs x m hi lo q : meaning_all V (Empty V) accepted l (repeat None n) = Some vs -> holds V vs x = Some (Full V m hi lo q) ->
  exists s, run V _ rq_class (l ++ [Assign V x x]) (start V _ n) = HOk s /\ seen V _ rq_class s x = HOk (0, [zero; zero], []).
Proof.
  intros M E. destruct (rq_all zero one vnext dnext mul add scaled coeff accepted accepted factor slope n l vs M) as (s & (Er & _) & bl & I).
  rewrite run_app, Er. cbn [hbind run step]. destruct (with_object _ _ _ _ _ _ I E) as (o & A & Eo & R & H). rewrite Eo. cbn [hbind]. rewrite Nat.eqb_refl. cbn [c_assign RadModel.rq_class].
  unfold assign_rq. destruct (drop_rq_ok _ _ _ _ _ _ _ _ _ _ _ _ _ _ R H) as (h1 & -> & T1). cbn [hbind]. destruct R as (N & b & ps & cs & p & -> & _ & _ & -> & _). cbn [r_n rq_of storage].
  apply Nat.eqb_neq in N. rewrite N. cbn [assign_rb no_basis with_arrays b_n Nat.eqb hbind]. eexists. split; [reflexivity|]. rewrite (seen_put _ _ _ _ _ _ Eo). reflexivity.
Qed.
(** [RB_Chebyshev] keeps its pointers: the destructor frees them again. *)
Lemma keeps_pointers m hi lo q o (h : memory V) A : m <> 0 -> rep_full zero polynomials m hi lo q o h A -> has h A ->
  exists h1, release_all V (arrays V o) h = HOk h1 /\ forall n' inner hi' lo', destroy_basis V (with_arrays V n' inner hi' lo' (arrays V o)) h1 = HErr DoubleFree.
Proof.
  intros N (L & -> & F) H. rewrite with_arrays_arrays by auto. destruct (release_all_ok A h H) as (h1 & E & T). exists h1. split; auto. intros n' inner hi' lo'.
  unfold destroy_basis. rewrite with_arrays_arrays by auto. destruct (three _ L) as (a & b & c & ->). cbn [map release_all hfold].
  unfold release_all. cbn [hfold]. rewrite (freed_twice h h1 [a; b; c] a H); auto; [now left|]. eapply release_all_length; eauto.
Qed.
Lemma object_put {O} (s : state V O) x o o' h : object V O s x = HOk o -> object V O (put O (fst s) x o', h) x = HOk o'.
Proof.
  intros E. unfold object, put in *. cbn [fst]. rewrite replace_nth, Nat.eqb_refl. assert (x < length (fst s)) as L. { apply nth_error_Some. destruct (nth_error (fst s) x); congruence. }
  apply Nat.ltb_lt in L. now rewrite L.
Qed.
Lemma rb_self n l vs x m hi lo q : meaning_all V (Empty V) accepted l (repeat None n) = Some vs -> holds V vs x = Some (Full V m hi lo q) ->
  run V _ rb_class (l ++ [Assign V x x; Destroy V x]) (start V _ n) = HErr DoubleFree.
Proof.
  intros M E. destruct (rb_all zero one vnext dnext mul scaled coeff accepted n l vs M) as (s & (Er & _) & bl & I).
  rewrite run_app, Er. cbn [hbind run]. cbn [step]. destruct (with_object _ _ _ _ _ _ I E) as (o & A & Eo & (N & R) & H). rewrite Eo. cbn [hbind]. rewrite Nat.eqb_refl. cbn [c_assign RadModel.rb_class].
  unfold assign_rb. destruct (keeps_pointers m hi lo q o (snd s) A N R H) as (h1 & Ed & Dd). pose proof R as (L & Eo' & _). assert (b_n V o =? 0 = false) as -> by (rewrite Eo'; cbn; now apply Nat.eqb_neq).
  rewrite Ed. cbn [hbind b_n b_inner b_hi b_lo with_arrays Nat.eqb fst snd].
  rewrite (object_put _ _ _ _ _ Eo). cbn [hbind c_destroy RadModel.rb_class snd]. change (arrays V (with_arrays V 0 (b_inner V o) zero zero (arrays V o))) with (arrays V o). rewrite Dd. reflexivity.
Qed.
Lemma rb_from_empty n l vs x y m hi lo q : meaning_all V (Empty V) accepted l (repeat None n) = Some vs -> holds V vs x = Some (Full V m hi lo q) -> holds V vs y = Some (Empty V) ->
  run V _ rb_class (l ++ [Assign V x y; Destroy V x]) (start V _ n) = HErr DoubleFree.
Proof.
  intros M E Ey. destruct (rb_all zero one vnext dnext mul scaled coeff accepted n l vs M) as (s & (Er & _) & bl & I).
  rewrite run_app, Er. cbn [hbind run]. cbn [step]. destruct (with_object _ _ _ _ _ _ I E) as (o & A & Eo & (N & R) & H). rewrite Eo. cbn [hbind].
  destruct (with_object _ _ _ _ _ _ I Ey) as (o2 & A2 & Eo2 & (_ & inner & ->) & _). rewrite Eo2. cbn [hbind].
  assert (x =? y = false) as -> by (apply Nat.eqb_neq; intros ->; congruence). cbn [c_assign RadModel.rb_class].
  unfold assign_rb. destruct (keeps_pointers m hi lo q o (snd s) A N R H) as (h1 & Ed & Dd). pose proof R as (L & Eo' & _). assert (b_n V o =? 0 = false) as -> by (rewrite Eo'; cbn; now apply Nat.eqb_neq).
  rewrite Ed. cbn [hbind b_n b_inner b_hi b_lo with_arrays Nat.eqb fst snd].
  rewrite (object_put _ _ _ _ _ Eo). cbn [hbind c_destroy RadModel.rb_class snd]. change (arrays V (with_arrays V 0 (b_inner V o) zero zero (arrays V o))) with (arrays V o). rewrite Dd. reflexivity.
Qed.

(** What is shown of a copy of an empty one, and after an assignment from one. *)
Lemma seen_new {O} (C : class V O) (s : state V O) x o h : vacant V O s x = HOk tt -> seen V O C (put O (fst s) x o, h) x = c_look V O C o h.
Proof.
  intros E. unfold seen, object, put, vacant in *. cbn [fst snd]. rewrite replace_nth, Nat.eqb_refl. assert (x < length (fst s)) as L. { apply nth_error_Some. destruct (nth_error (fst s) x); congruence. }
  apply Nat.ltb_lt in L. now rewrite L.
Qed.
Lemma rb_of_empty n l vs x y : meaning_all V (Empty V) accepted l (repeat None n) = Some vs -> holds V vs y = Some (Empty V) ->
  (is_free V vs x = true -> exists s, run V _ rb_class (l ++ [Copy V x y]) (start V _ n) = HOk s /\ seen V _ rb_class s x = HOk (0, [zero; zero], [])) /\
  (forall m hi lo q, holds V vs x = Some (Full V m hi lo q) -> exists s, run V _ rb_class (l ++ [Assign V x y]) (start V _ n) = HOk s /\ seen V _ rb_class s x = HOk (0, [zero; zero], [])).
Proof.
  intros M Ey. destruct (rb_all zero one vnext dnext mul scaled coeff accepted n l vs M) as (s & (Er & _) & bl & I).
  destruct (with_object _ _ _ _ _ _ I Ey) as (o2 & A2 & Eo2 & (_ & inner & ->) & _). split.
  - intros F. rewrite run_app, Er. cbn [hbind run step]. destruct (free_cell _ _ _ _ _ I F) as (Fx & _). rewrite Fx. cbn [hbind]. rewrite Eo2. cbn [hbind c_copy RadModel.rb_class].
    unfold copy_rb. cbn [b_n with_arrays Nat.eqb hbind]. eexists. split; [reflexivity|]. rewrite (seen_new _ _ _ _ _ Fx). reflexivity.
  - intros m hi lo q E. rewrite run_app, Er. cbn [hbind run step]. destruct (with_object _ _ _ _ _ _ I E) as (o & A & Eo & (N & R) & H). rewrite Eo. cbn [hbind]. rewrite Eo2. cbn [hbind].
    assert (x =? y = false) as -> by (apply Nat.eqb_neq; intros ->; congruence). cbn [c_assign RadModel.rb_class].
    unfold assign_rb. destruct (keeps_pointers m hi lo q o (snd s) A N R H) as (h1 & Ed & _). pose proof R as (L & Eo' & _). assert (b_n V o =? 0 = false) as -> by (rewrite Eo'; cbn; now apply Nat.eqb_neq).
    rewrite Ed. cbn [hbind b_n b_inner b_hi b_lo with_arrays Nat.eqb fst snd]. eexists. split; [reflexivity|]. rewrite (seen_put _ _ _ _ _ _ Eo). reflexivity.
Qed.

(** *** Empty [RQ_Chebyshev] *)
Lemma rq_empty_breaks n l vs y : meaning_all V (Empty V) accepted l (repeat None n) = Some vs -> holds V vs y = Some (Empty V) ->
  (forall x, is_free V vs x = true -> run V _ rq_class (l ++ [Copy V x y]) (start V _ n) = HErr NullDeref) /\
  (forall x v, holds V vs x = Some v -> x <> y -> run V _ rq_class (l ++ [Assign V x y]) (start V _ n) = HErr NullDeref) /\
  (forall r, run V _ rq_class (l ++ [Build V y r]) (start V _ n) = HErr (if accepted zero zero r then NullDeref else Aborted)).
Proof.
  intros M Ey. destruct (rq_all zero one vnext dnext mul add scaled coeff accepted accepted factor slope n l vs M) as (s & (Er & _) & bl & I).
  destruct (with_object _ _ _ _ _ _ I Ey) as (o & A & Eo & (_ & inner & ->) & _). split; [|split].
  - intros x F. rewrite run_app, Er. cbn [hbind run step]. destruct (free_cell _ _ _ _ _ I F) as (-> & _). cbn [hbind]. rewrite Eo. reflexivity.
  - intros x v E D. rewrite run_app, Er. cbn [hbind run step]. destruct (with_object _ _ _ _ _ _ I E) as (t & B & Et & R & H). rewrite Et. cbn [hbind]. rewrite Eo. cbn [hbind].
    apply Nat.eqb_neq in D. rewrite D. cbn [c_assign RadModel.rq_class]. unfold assign_rq. destruct (drop_rq_ok _ _ _ _ _ _ _ _ _ _ _ _ _ _ R H) as (h1 & -> & _). reflexivity.
  - intros r. rewrite run_app, Er. cbn [hbind run step]. rewrite Eo. cbn [hbind c_build RadModel.rq_class]. unfold build_rq. cbn [r_hi r_lo r_basis]. destruct (accepted zero zero r); reflexivity.
Qed.

(** *** Distances that are not accepted *)
Lemma rb_rejects n l vs x m hi lo q r : meaning_all V (Empty V) accepted l (repeat None n) = Some vs -> holds V vs x = Some (Full V m hi lo q) -> accepted hi lo r = false ->
  run V _ rb_class (l ++ [Build V x r]) (start V _ n) = HErr Aborted.
Proof.
  intros M E Na. destruct (rb_all zero one vnext dnext mul scaled coeff accepted n l vs M) as (s & (Er & _) & bl & I).
  destruct (with_object _ _ _ _ _ _ I E) as (o & A & Eo & (_ & _ & -> & _) & _). rewrite run_app, Er. cbn [hbind run step]. rewrite Eo. cbn [hbind c_build RadModel.rb_class]. unfold build_rb. cbn [b_hi b_lo with_arrays]. now rewrite Na.
Qed.
Lemma rq_rejects n l vs x m hi lo q r : meaning_all V (Empty V) accepted l (repeat None n) = Some vs -> holds V vs x = Some (Full V m hi lo q) -> accepted hi lo r = false ->
  run V _ rq_class (l ++ [Build V x r]) (start V _ n) = HErr Aborted.
Proof.
  intros M E Na. destruct (rq_all zero one vnext dnext mul add scaled coeff accepted accepted factor slope n l vs M) as (s & (Er & _) & bl & I).
  destruct (with_object _ _ _ _ _ _ I E) as (o & A & Eo & (_ & b & ps & cs & p & _ & _ & _ & -> & _) & _). rewrite run_app, Er. cbn [hbind run step]. rewrite Eo. cbn [hbind c_build RadModel.rq_class].
  unfold build_rq. cbn [r_hi r_lo rq_of]. now rewrite Na.
Qed.

(** *** Memory that is lost *)
Lemma poly_lost (hi lo : V) :
  (exists s, run V _ poly_class [Make V 0 2 hi lo; Make V 1 2 hi lo; Assign V 0 0; MoveAssign V 0 1; Destroy V 0; Destroy V 1] (start V _ 2) = HOk s /\ fst s = [None; None] /\ in_use V (snd s) = 3) /\
  (exists s, run V _ poly_class [Default V 0; Copy V 1 0; Make V 2 2 hi lo; Assign V 1 2; Destroy V 0; Destroy V 1; Destroy V 2] (start V _ 3) = HOk s /\ fst s = [None; None; None] /\ in_use V (snd s) = 3).
Proof. split; eexists; (split; [vm_compute; reflexivity|]; split; reflexivity). Qed.
Lemma q_lost (hi lo : V) :
  exists s, run V _ q_class [Make V 0 2 hi lo; Make V 1 2 hi lo; Assign V 0 0; Assign V 0 1; Destroy V 0; Destroy V 1] (start V _ 2) = HOk s /\ fst s = [None; None] /\ in_use V (snd s) = 5.
Proof. eexists. split; [vm_compute; reflexivity|]. split; reflexivity. Qed.
Lemma rq_lost (hi lo : V) :
  exists s, run V _ rq_class [Make V 0 2 hi lo; Make V 1 2 hi lo; Assign V 0 0; Assign V 0 1; Destroy V 0; Destroy V 1] (start V _ 2) = HOk s /\ fst s = [None; None] /\ in_use V (snd s) = 1.
Proof. eexists. split; [vm_compute; reflexivity|]. split; reflexivity. Qed.
End Numbers.

Section All.
Context {V : Type}.
Variables zero one : V.
Variable vnext : V -> V -> V -> V.
Variable dnext : V -> V -> V -> V -> V.
Variables mul add : V -> V -> V.
Variable scaled : V -> V -> V -> V.
Variable coeff : V -> V -> V.
Variables inside accepted : V -> V -> V -> bool.
Variables factor slope : V -> V -> V -> V.
Notation poly := (poly_class V zero one vnext dnext mul scaled coeff inside).
Notation rb := (rb_class V zero one vnext dnext mul scaled coeff accepted).
Notation q := (q_class V zero one vnext dnext mul add scaled coeff inside factor slope).
Notation rq := (rq_class V zero one vnext dnext mul add scaled coeff accepted factor slope).
Notation any := (fun _ _ _ => true).
Notation run C := (run V _ C).
Notation start := (start V _).
Notation seen C := (seen V _ C).
Notation new := (repeat None).
Lemma all_untouched n l c z : ~ touches c z ->
  (forall vs s s', meaning_all V (Empty V) any (l ++ [c]) (new n) = Some vs -> run poly l (start n) = HOk s -> run poly (l ++ [c]) (start n) = HOk s' -> seen poly s' z = seen poly s z) /\
  (forall vs s s', meaning_all V (Empty V) accepted (l ++ [c]) (new n) = Some vs -> run rb l (start n) = HOk s -> run rb (l ++ [c]) (start n) = HOk s' -> seen rb s' z = seen rb s z) /\
  (forall vs s s', meaning_all V (Raw V) any (l ++ [c]) (new n) = Some vs -> run q l (start n) = HOk s -> run q (l ++ [c]) (start n) = HOk s' -> seen q s' z = seen q s z) /\
  (forall vs s s', meaning_all V (Empty V) accepted (l ++ [c]) (new n) = Some vs -> run rq l (start n) = HOk s -> run rq (l ++ [c]) (start n) = HOk s' -> seen rq s' z = seen rq s z).
Proof.
  intros N. split; [|split; [|split]]; intros vs s s' M E E'.
  - exact (untouched poly (Empty V) any 3 (shows V zero 3 (fun _ _ => []) (cut_polynomials V zero one vnext dnext mul scaled coeff inside)) n l c vs s s' z (poly_programs zero one vnext dnext mul scaled coeff inside) M E E' N).
  - exact (untouched rb (Empty V) accepted 3 (shows V zero 3 (fun hi lo => [hi; lo]) (polynomials V zero one vnext dnext mul scaled coeff)) n l c vs s s' z (rb_programs zero one vnext dnext mul scaled coeff accepted) M E E' N).
  - exact (untouched q (Raw V) any 5 (shows V zero 2 (fun _ _ => []) (q_tables V zero one vnext dnext mul add scaled coeff inside factor slope)) n l c vs s s' z (q_programs zero one vnext dnext mul add scaled coeff inside factor slope) M E E' N).
  - exact (untouched rq (Empty V) accepted 6 (shows V zero 2 (fun hi lo => [hi; lo]) (rq_tables V zero one vnext dnext mul add scaled coeff factor slope)) n l c vs s s' z (rq_programs zero one vnext dnext mul add scaled coeff inside accepted factor slope) M E E' N).
Qed.
Lemma both_reject n l vs x m hi lo b r : meaning_all V (Empty V) accepted l (new n) = Some vs -> holds V vs x = Some (Full V m hi lo b) -> accepted hi lo r = false ->
  run rb (l ++ [Build V x r]) (start n) = HErr Aborted /\ run rq (l ++ [Build V x r]) (start n) = HErr Aborted.
Proof. intros M E Na. split; [eapply rb_rejects; eauto|eapply rq_rejects; eauto]. Qed.
Lemma all_self n l x :
  (forall vs m hi lo b, meaning_all V (Empty V) any l (new n) = Some vs -> holds V vs x = Some (Full V m hi lo b) ->
     exists s, run poly (l ++ [Assign V x x]) (start n) = HOk s /\ seen poly s x = HOk (0, [], [])) /\
  (forall vs m hi lo b, meaning_all V (Raw V) any l (new n) = Some vs -> holds V vs x = Some (Full V m hi lo b) ->
     exists s, run q (l ++ [Assign V x x]) (start n) = HOk s /\ seen q s x = HOk (0, [], [])) /\
  (forall vs m hi lo b, meaning_all V (Empty V) accepted l (new n) = Some vs -> holds V vs x = Some (Full V m hi lo b) ->
     exists s, run rq (l ++ [Assign V x x]) (start n) = HOk s /\ seen rq s x = HOk (0, [zero; zero], [])).
Proof. split; [|split]; intros vs m hi lo b M E; [eapply poly_self|eapply q_self|eapply rq_self]; eauto. Qed.
Lemma all_lost (hi lo : V) :
  (exists s, run poly [Make V 0 2 hi lo; Make V 1 2 hi lo; Assign V 0 0; MoveAssign V 0 1; Destroy V 0; Destroy V 1] (start 2) = HOk s /\ fst s = [None; None] /\ in_use V (snd s) = 3) /\
  (exists s, run poly [Default V 0; Copy V 1 0; Make V 2 2 hi lo; Assign V 1 2; Destroy V 0; Destroy V 1; Destroy V 2] (start 3) = HOk s /\ fst s = [None; None; None] /\ in_use V (snd s) = 3) /\
  (exists s, run q [Make V 0 2 hi lo; Make V 1 2 hi lo; Assign V 0 0; Assign V 0 1; Destroy V 0; Destroy V 1] (start 2) = HOk s /\ fst s = [None; None] /\ in_use V (snd s) = 5) /\
  (exists s, run rq [Make V 0 2 hi lo; Make V 1 2 hi lo; Assign V 0 0; Assign V 0 1; Destroy V 0; Destroy V 1] (start 2) = HOk s /\ fst s = [None; None] /\ in_use V (snd s) = 1).
Proof.
  split; [exact (proj1 (poly_lost zero one vnext dnext mul scaled coeff inside hi lo))|].
  split; [exact (proj2 (poly_lost zero one vnext dnext mul scaled coeff inside hi lo))|].
  split; [exact (q_lost zero one vnext dnext mul add scaled coeff inside factor slope hi lo)|exact (rq_lost zero one vnext dnext mul add scaled coeff accepted factor slope hi lo)].
Qed.
End All.
