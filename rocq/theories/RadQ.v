(** The four classes: their operations are right one by one, so programs are. *)
From Coq Require Import Permutation.
From Verif Require Import HeapProofs RadModel RadSpec RadHeap RadProg RadObj.
Local Open Scope nat_scope.
Local Open Scope list_scope.

Section Numbers.
Context {V : Type}.
Variables zero one : V.
Variable vnext : V -> V -> V -> V.
Variable dnext : V -> V -> V -> V -> V.
Variables mul add : V -> V -> V.
Variable scaled : V -> V -> V -> V.
Variable coeff : V -> V -> V.
Variables inside accepted : V -> V -> V -> bool.
Variables factor slope : V -> V -> V -> V.
Implicit Types h : memory V.
Notation value := (value V zero one vnext dnext).
Notation deriv := (deriv V zero one vnext dnext).
Notation rderiv := (rderiv V zero one vnext dnext mul scaled coeff).
Notation polynomials := (polynomials V zero one vnext dnext mul scaled coeff).
Notation cut_polynomials := (cut_polynomials V zero one vnext dnext mul scaled coeff inside).
Notation cut_value := (cut_value V zero one vnext dnext scaled inside).
Notation cut_rderiv := (cut_rderiv V zero one vnext dnext mul scaled coeff inside).
Notation q_tables := (q_tables V zero one vnext dnext mul add scaled coeff inside factor slope).
Notation rq_tables := (rq_tables V zero one vnext dnext mul add scaled coeff factor slope).
Notation poly_class := (poly_class V zero one vnext dnext mul scaled coeff inside).
Notation rb_class := (rb_class V zero one vnext dnext mul scaled coeff accepted).
Notation q_class := (q_class V zero one vnext dnext mul add scaled coeff inside factor slope).
Notation rq_class := (rq_class V zero one vnext dnext mul add scaled coeff accepted factor slope).

Lemma poly_len n hi lo r : length (polynomials n hi lo r) = 3 /\ Forall (fun l => length l = n) (polynomials n hi lo r).
Proof. split; [reflexivity|]. repeat constructor; apply length_map_seq. Qed.
Lemma cut_len n hi lo r : length (cut_polynomials n hi lo r) = 3 /\ Forall (fun l => length l = n) (cut_polynomials n hi lo r).
Proof. unfold RadSpec.cut_polynomials. destruct (inside hi lo r); [apply poly_len|]. split; [reflexivity|apply zeros_len]. Qed.

Ltac fin := repeat match goal with |- _ /\ _ => split | |- rep_b _ _ (Full _ _ _ _ _) _ _ _ => split end; auto.
(** *** Polynomials *)
Notation rep_p := (rep_b zero cut_polynomials).
Notation full_p := (rep_full zero cut_polynomials).
Lemma build_poly_ok n hi lo q o h A r : full_p n hi lo q o h A -> has h A ->
  exists o' h', build_poly V zero one vnext dnext mul scaled coeff inside o r h = HOk (o', h') /\ to h h' A A /\ full_p n hi lo (Some r) o' h' A.
Proof.
  intros (L & -> & F) H. destruct (content_len zero _ cut_len n hi lo q) as (_ & Ln). unfold build_poly. rewrite with_arrays_arrays by auto.
  cbn [b_n b_inner b_hi b_lo b_vals b_ders b_rders with_arrays fst snd]. destruct (inside hi lo r) eqn:E.
  - destruct (build_loop zero one vnext dnext mul scaled coeff n hi lo r A _ h H L F Ln) as (h' & -> & T & F'). cbn [hbind]. eexists _, _. split; [reflexivity|]. split; auto. split; auto. split; auto.
    cbn [content]. unfold RadSpec.cut_polynomials. now rewrite E.
  - destruct (refill zero n A _ h H F Ln) as (h' & -> & T & F'). cbn [hbind]. eexists _, _. split; [reflexivity|]. split; auto. split; auto. split; auto.
    cbn [content]. unfold RadSpec.cut_polynomials. rewrite E, <- L. exact F'.
Qed.
Lemma empty_p h : rep_p (Empty V) (no_basis V zero) h [].
Proof. split; [reflexivity|]. exists (zero, zero). reflexivity. Qed.
Theorem poly_all n l vs : meaning_all V (Empty V) (fun _ _ _ => true) l (repeat None n) = Some vs ->
  exists s, (run V _ poly_class l (start V _ n) = HOk s /\ (forall x, seen V _ poly_class s x = shows V zero 3 (fun _ _ => []) cut_polynomials (holds V vs x)) /\ in_use V (snd s) = needed V 3 vs) /\ exists bl, inv rep_p s vs bl.
Proof.
  apply (programs poly_class (Empty V) (fun _ _ _ => true) 3 (shows V zero 3 (fun _ _ => []) cut_polynomials) rep_p); cbn [c_default c_make c_copy c_move c_assign c_move_assign c_build c_destroy c_look RadModel.poly_class].
  - intros. eapply rep_b_blocks; eauto.
  - intros. eapply rep_b_frame; eauto.
  - intros h. apply empty_p.
  - intros n0 hi lo h N. destruct (make_ok zero cut_polynomials n0 hi lo h) as (o & h' & bs & E & T & R). exists o, h', bs. fin.
  - intros n0 hi lo r o h B (N & R) H. destruct (copy_poly_ok zero _ cut_len n0 hi lo r o h B R) as (o' & h' & bs & E & T & R'). exists o', h', bs. fin.
  - intros n0 hi lo r o h B (N & R) H. exists o, (moved_basis V zero), h, B. split; [reflexivity|]. split; [apply to_refl|]. split; [split; [exact N|exact R]|apply empty_p].
  - intros v t n0 hi lo r o h A B Rt (N & R) H. destruct (assign_poly_ok zero _ cut_len v t n0 hi lo r o h A B Rt R H) as (o' & h' & bs & E & T & R'). exists o', h', bs. fin.
  - intros v t n0 hi lo r o h A B Rt (N & R) H. destruct (move_assign_ok zero _ v t n0 hi lo r o h A B Rt R H) as (o' & w & h' & bs & E & T & R' & W). exists o', w, h', bs. fin.
  - intros n0 hi lo q o h A r (N & R) H _. destruct (build_poly_ok n0 hi lo q o h A r R H) as (o' & h' & E & T & R'). exists o', h', A. fin.
  - intros v o h A R H _. exact (destroy_ok zero _ v o h A R H).
  - intros v o h A R. destruct v as [| |n0 hi lo q]; cbn [rep_b] in R.
    1,2: destruct R as (-> & inner & ->); reflexivity.
    destruct R as (N & L & -> & F). rewrite with_arrays_arrays by auto. cbn [b_n b_hi b_lo with_arrays].
    apply (look_ok zero cut_polynomials 3 (fun _ _ => [])  n0 hi lo q A (content zero cut_polynomials n0 hi lo q)); auto. apply (content_len zero _ cut_len).
  - reflexivity.
Qed.
Theorem poly_programs n l vs : meaning_all V (Empty V) (fun _ _ _ => true) l (repeat None n) = Some vs ->
  exists s, run V _ poly_class l (start V _ n) = HOk s /\ (forall x, seen V _ poly_class s x = shows V zero 3 (fun _ _ => []) cut_polynomials (holds V vs x)) /\ in_use V (snd s) = needed V 3 vs.
Proof. intros M. destruct (poly_all n l vs M) as (s & P & _). exists s. exact P. Qed.

(** *** Polynomials of basis.h *)
Notation rep_r := (rep_b zero polynomials).
Notation full_r := (rep_full zero polynomials).
Lemma build_rb_ok n hi lo q o h A r : full_r n hi lo q o h A -> has h A -> accepted hi lo r = true ->
  exists o' h', build_rb V zero one vnext dnext mul scaled coeff accepted o r h = HOk (o', h') /\ to h h' A A /\ full_r n hi lo (Some r) o' h' A.
Proof.
  intros (L & -> & F) H E. destruct (content_len zero _ poly_len n hi lo q) as (_ & Ln). unfold build_rb. cbn [b_n b_inner b_hi b_lo b_vals b_ders b_rders with_arrays fst snd]. rewrite E.
  destruct (build_loop zero one vnext dnext mul scaled coeff n hi lo r A _ h H L F Ln) as (h' & -> & T & F'). cbn [hbind]. eexists _, _. split; [reflexivity|]. split; auto. split; auto.
Qed.
Lemma empty_r h : rep_r (Empty V) (no_basis V zero) h [].
Proof. split; [reflexivity|]. exists (zero, zero). reflexivity. Qed.
Theorem rb_all n l vs : meaning_all V (Empty V) accepted l (repeat None n) = Some vs ->
  exists s, (run V _ rb_class l (start V _ n) = HOk s /\ (forall x, seen V _ rb_class s x = shows V zero 3 (fun hi lo => [hi; lo]) polynomials (holds V vs x)) /\ in_use V (snd s) = needed V 3 vs) /\ exists bl, inv rep_r s vs bl.
Proof.
  apply (programs rb_class (Empty V) accepted 3 (shows V zero 3 (fun hi lo => [hi; lo]) polynomials) rep_r); cbn [c_default c_make c_copy c_move c_assign c_move_assign c_build c_destroy c_look RadModel.rb_class].
  - intros. eapply rep_b_blocks; eauto.
  - intros. eapply rep_b_frame; eauto.
  - intros h. apply empty_r.
  - intros n0 hi lo h N. destruct (make_ok zero polynomials n0 hi lo h) as (o & h' & bs & E & T & R). exists o, h', bs. fin.
  - intros n0 hi lo r o h B (N & R) H. destruct (copy_rb_ok zero _ poly_len n0 hi lo r o h B N R) as (o' & h' & bs & E & T & R'). exists o', h', bs. fin.
  - intros n0 hi lo r o h B (N & R) H. exists o, (moved_basis V zero), h, B. split; [reflexivity|]. split; [apply to_refl|]. split; [split; [exact N|exact R]|apply empty_r].
  - intros v t n0 hi lo r o h A B Rt (N & R) H. destruct (assign_rb_ok zero _ poly_len v t n0 hi lo r o h A B N Rt R H) as (o' & h' & bs & E & T & R'). exists o', h', bs. fin.
  - intros v t n0 hi lo r o h A B Rt (N & R) H. destruct (move_assign_ok zero _ v t n0 hi lo r o h A B Rt R H) as (o' & w & h' & bs & E & T & R' & W). exists o', w, h', bs. fin.
  - intros n0 hi lo q o h A r (N & R) H Ac. destruct (build_rb_ok n0 hi lo q o h A r R H Ac) as (o' & h' & E & T & R'). exists o', h', A. fin.
  - intros v o h A R H _. exact (destroy_ok zero _ v o h A R H).
  - intros v o h A R. destruct v as [| |n0 hi lo q]; cbn [rep_b] in R.
    1,2: destruct R as (-> & inner & ->); reflexivity.
    destruct R as (N & L & -> & F). rewrite with_arrays_arrays by auto. cbn [b_n b_hi b_lo with_arrays].
    apply (look_ok zero polynomials 3 (fun hi lo => [hi; lo]) n0 hi lo q A (content zero polynomials n0 hi lo q)); auto. apply (content_len zero _ poly_len).
  - reflexivity.
Qed.
Theorem rb_programs n l vs : meaning_all V (Empty V) accepted l (repeat None n) = Some vs ->
  exists s, run V _ rb_class l (start V _ n) = HOk s /\ (forall x, seen V _ rb_class s x = shows V zero 3 (fun hi lo => [hi; lo]) polynomials (holds V vs x)) /\ in_use V (snd s) = needed V 3 vs.
Proof. intros M. destruct (rb_all n l vs M) as (s & P & _). exists s. exact P. Qed.

Lemma two {A} (l : list A) : length l = 2 -> exists a b, l = [a; b].
Proof. destruct l as [|a [|b [|]]]; try discriminate. eauto. Qed.

(** *** Radial functions of mtpMRadial.h *)
Definition content_q (n : nat) (hi lo : V) (q : option V) : list (list V) := match q with None => repeat (repeat zero n) 2 | Some r => q_tables n hi lo r end.
Lemma content_q_len n hi lo q : length (content_q n hi lo q) = 2 /\ Forall (fun l => length l = n) (content_q n hi lo q).
Proof. destruct q; cbn [content_q]; (split; [reflexivity|]); [repeat constructor; apply length_map_seq|apply zeros_len]. Qed.
Definition q_of n inner p (cs : list nat) : mtp_q V := {| q_n := n; q_inner := inner; q_poly := p; q_vals := nth 0 (map At cs) Null; q_ders := nth 1 (map At cs) Null |}.
Definition full_q n hi lo q (o : mtp_q V) h (bs : list nat) : Prop :=
  exists ps cs p, bs = ps ++ cs /\ full_p n hi lo q p h ps /\ length cs = 2 /\ o = q_of n (hi, lo) p cs /\ Forall2 (arr h) cs (content_q n hi lo q).
Definition rep_q (v : held V) (o : mtp_q V) h (bs : list nat) : Prop :=
  match v with
  | Full _ n hi lo q => n <> 0 /\ full_q n hi lo q o h bs
  | Raw _ => bs = [] /\ o = no_q V zero
  | Empty _ => bs = [] /\ exists inner p, rep_p (Empty V) p h [] /\ o = {| q_n := 0; q_inner := inner; q_poly := p; q_vals := Null; q_ders := Null |}
  end.
Lemma rep_q_frame v o h h' bs : rep_q v o h bs -> (forall b, In b bs -> nth_error h' b = nth_error h b) -> rep_q v o h' bs.
Proof.
  destruct v as [| |n hi lo q]; cbn [rep_q]; auto. intros (N & ps & cs & p & -> & Rp & L & -> & F) Fr. split; auto. exists ps, cs, p. split; auto. split.
  - eapply rep_full_frame; eauto. intros b Hb. apply Fr, in_or_app. auto.
  - split; auto. split; auto. eapply arr_same; eauto. intros b Hb. apply Fr, in_or_app. auto.
Qed.
Lemma clear_ok v p h A : rep_p v p h A -> has h A -> exists p' h', clear_poly V zero p h = HOk (p', h') /\ to h h' A [] /\ rep_p (Empty V) p' h' [].
Proof.
  intros R H. unfold clear_poly, move_assign_basis. destruct (drop_ok zero _ v p h A R H) as (h1 & -> & T). cbn [hbind]. eexists _, _. split; [reflexivity|]. split; auto. apply empty_p.
Qed.
Lemma make_q_ok n hi lo h : exists o h' bs, make_q V zero n hi lo h = HOk (o, h') /\ to h h' [] bs /\ full_q n hi lo None o h' bs.
Proof.
  unfold make_q. destruct (make_ok zero cut_polynomials n hi lo h) as (o & h1 & ps & -> & T1 & R1). cbn [hbind].
  assert (has h1 ([] ++ ps)) as H1 by (exact (has_to _ _ _ _ (has_nil h) T1)).
  destruct (move_assign_ok zero _ _ _ n hi lo None o h1 [] ps (empty_p h1) R1 H1) as (o' & w & h2 & ps' & E2 & T2 & R2 & W). rewrite E2. cbn [hbind].
  destruct (destroy_ok zero _ _ _ _ _ W (has_nil h2)) as (h3 & -> & T3). cbn [hbind]. rewrite alloc_all_eq. destruct (fill_new zero n 2 h3) as (h4 & -> & T4 & F4). cbn [hbind].
  set (cs := seq (length h3) 2) in *. exists (q_of n (hi, lo) o' cs), h4, (ps' ++ cs). split; [reflexivity|].
  assert (to h h2 [] ps') as T12 by (eapply to_trans; [exact T1|exact T2]).
  assert (to h h3 [] ps') as T13 by (eapply to_trans; [exact T12|apply (to_frame _ _ [] [] ps' T3)]).
  split; [eapply to_trans; [exact T13|]; apply (to_perm _ _ ([] ++ ps') (cs ++ ps')); [apply to_frame; exact T4|reflexivity|apply Permutation_app_comm]|].
  exists ps', cs, o'. split; [reflexivity|]. split; [|split; [apply seq_length|split; [reflexivity|exact F4]]].
  assert (has h2 ([] ++ ps')) as H2 by (exact (has_to _ _ _ _ (has_nil h) T12)). destruct (has_to_frame _ _ _ _ _ H2 T3) as (H3 & Fr3). destruct (has_to_frame _ _ [] cs ps' H3 T4) as (_ & Fr4).
  eapply rep_full_frame; [exact R2|]. intros b Hb. rewrite Fr4, Fr3; auto.
Qed.
Lemma copy_q_into_ok n hi lo q r h cs p ps p0 : q_n V r = n -> q_inner V r = (hi, lo) -> [q_vals V r; q_ders V r] = map At cs -> Forall2 (arr h) cs (content_q n hi lo q) ->
  full_p n hi lo q p h ps -> has h ps -> p0 = p ->
  exists o' h' cs', copy_q_into V p0 r h = HOk (o', h') /\ to h h' [] cs' /\ full_q n hi lo q o' h' (ps ++ cs').
Proof.
  intros <- En Ea F Rp Hp ->. unfold copy_q_into. rewrite Ea, alloc_all_eq. destruct (content_q_len (q_n V r) hi lo q) as (L2 & Ln).
  destruct (copy_new _ cs _ h F Ln) as (h' & E & T & F'). rewrite L2 in *. rewrite E. cbn [hbind]. rewrite En. set (cs' := seq (length h) 2) in *.
  exists (q_of (q_n V r) (hi, lo) p cs'), h', cs'. split; [reflexivity|]. split; auto. exists ps, cs', p. split; auto. split; [|split; [apply seq_length|split; auto]].
  eapply rep_full_frame; [exact Rp|]. destruct (has_to_frame h h' [] cs' ps Hp T) as (_ & Fr). exact Fr.
Qed.
Lemma q_of_arrays n inner p cs : length cs = 2 -> [q_vals V (q_of n inner p cs); q_ders V (q_of n inner p cs)] = map At cs.
Proof. intros L. destruct (two _ L) as (a & b & ->). reflexivity. Qed.
(** Assigning the member and then the arrays. *)
Lemma assign_rest v p n hi lo q o h A B : rep_p v p h A -> full_q n hi lo q o h B -> has h (A ++ B) ->
  exists o' h' bs, hbind (assign_poly V zero p (Some (q_poly V o)) h) (fun '(p, h) => copy_q_into V p o h) = HOk (o', h') /\ to h h' A bs /\ full_q n hi lo q o' h' bs.
Proof.
  intros Rt (ps & cs & p1 & -> & Rp & L & -> & F) H. cbn [q_poly q_of]. pose proof H as H'. rewrite app_assoc in H'.
  destruct (assign_poly_ok zero _ cut_len v p n hi lo q p1 h A ps Rt Rp (has_part _ _ _ H')) as (p2 & h1 & ps2 & -> & T1 & R1). cbn [hbind].
  destruct (has_to_frame _ _ _ _ _ H T1) as (H1 & Fr1).
  assert (Forall2 (arr h1) cs (content_q n hi lo q)) as F1 by (eapply arr_same; eauto; intros b Hb; apply Fr1, in_or_app; auto).
  destruct (copy_q_into_ok n hi lo q (q_of n (hi, lo) p1 cs) h1 cs p2 ps2 p2 eq_refl eq_refl (q_of_arrays _ _ _ _ L) F1 R1 (has_part _ _ _ H1) eq_refl) as (o' & h2 & cs2 & E & T2 & R2). rewrite E.
  exists o', h2, (ps2 ++ cs2). split; [reflexivity|]. split; auto. eapply to_trans; [exact T1|]. apply (to_perm _ _ ([] ++ ps2) (cs2 ++ ps2)); [now apply to_frame|reflexivity|apply Permutation_app_comm].
Qed.
Lemma drop_q_ok v t h A : rep_q v t h A -> has h A ->
  exists h1 A1 w, (if q_n V t =? 0 then HOk h else release_all V [q_vals V t; q_ders V t] h) = HOk h1 /\ to h h1 A A1 /\ rep_p w (q_poly V t) h1 A1.
Proof.
  destruct v as [| |n hi lo q]; cbn [rep_q].
  - intros (-> & ->) H. exists h, [], (Empty V). split; [reflexivity|]. split; [apply to_refl|apply empty_p].
  - intros (-> & inner & p & R & ->) H. exists h, [], (Empty V). split; [reflexivity|]. split; [apply to_refl|exact R].
  - intros (N & ps & cs & p & -> & Rp & L & -> & F) H. rewrite q_of_arrays by auto. cbn [q_n q_of q_poly]. pose proof N as N'. apply Nat.eqb_neq in N. rewrite N.
    pose proof (has_perm _ _ _ H (Permutation_app_comm ps cs)) as H'. destruct (release_all_ok cs h (has_part _ _ _ H')) as (h1 & -> & T).
    exists h1, ps, (Full V n hi lo q). split; [reflexivity|]. split; [apply (to_perm _ _ (cs ++ ps) ([] ++ ps)); [now apply to_frame|apply Permutation_app_comm|reflexivity]|].
    cbn [rep_b]. split; auto. eapply rep_full_frame; [exact Rp|]. now destruct (has_to_frame _ _ _ _ _ H' T) as (_ & Fr).
Qed.
Lemma rep_full_q v o h bs n hi lo q : v = Full V n hi lo q -> rep_q v o h bs -> n <> 0 /\ full_q n hi lo q o h bs.
Proof. now intros ->. Qed.
Lemma full_q_frame n hi lo q o h h' bs : full_q n hi lo q o h bs -> (forall b, In b bs -> nth_error h' b = nth_error h b) -> full_q n hi lo q o h' bs.
Proof.
  intros (ps & cs & p & -> & Rp & L & -> & F) Fr. exists ps, cs, p. split; auto. split.
  - eapply rep_full_frame; eauto. intros b Hb. apply Fr, in_or_app. auto.
  - split; auto. split; auto. eapply arr_same; eauto. intros b Hb. apply Fr, in_or_app. auto.
Qed.
Lemma assign_q_ok v t n hi lo q o h A B : rep_q v t h A -> full_q n hi lo q o h B -> has h (A ++ B) ->
  exists o' h' bs, assign_q V zero t (Some o) h = HOk (o', h') /\ to h h' A bs /\ full_q n hi lo q o' h' bs.
Proof.
  intros Rt Ro H. unfold assign_q. destruct (drop_q_ok v t h A Rt (has_part _ _ _ H)) as (h1 & A1 & w & -> & T1 & R1). cbn [hbind q_poly option_map].
  destruct (has_to_frame _ _ _ _ _ H T1) as (H1 & Fr). pose proof (full_q_frame _ _ _ _ _ _ _ _ Ro Fr) as Ro1.
  destruct (assign_rest w (q_poly V t) n hi lo q o h1 A1 B R1 Ro1 H1) as (o' & h2 & bs & E & T2 & R2). exists o', h2, bs. split; auto. split; auto. eapply to_trans; eauto.
Qed.
(** The member is copied and then emptied in the other object. *)
Lemma move_rest v p n hi lo q o h A B : rep_p v p h A -> n <> 0 -> full_q n hi lo q o h B -> has h (A ++ B) ->
  exists o' w h' bs, hbind (assign_poly V zero p (Some (q_poly V o)) h) (fun '(p, h) => hbind (clear_poly V zero (q_poly V o) h) (fun '(p', h) =>
    HOk ({| q_n := q_n V o; q_inner := q_inner V o; q_poly := p; q_vals := q_vals V o; q_ders := q_ders V o |},
         {| q_n := 0; q_inner := (zero, zero); q_poly := p'; q_vals := Null; q_ders := Null |}, h))) = HOk (o', w, h') /\
    to h h' (A ++ B) bs /\ full_q n hi lo q o' h' bs /\ rep_q (Empty V) w h' [].
Proof.
  intros Rt N (ps & cs & p1 & -> & Rp & L & -> & F) H. cbn [q_poly q_of q_n q_inner]. pose proof H as H'. rewrite app_assoc in H'.
  destruct (assign_poly_ok zero _ cut_len v p n hi lo q p1 h A ps Rt Rp (has_part _ _ _ H')) as (p2 & h1 & ps2 & -> & T1 & R1). cbn [hbind].
  destruct (has_to_frame _ _ _ _ _ H T1) as (H1 & Fr1).
  assert (has h1 (ps ++ (ps2 ++ cs))) as H1'. { eapply has_perm; [exact H1|]. rewrite !app_assoc. apply Permutation_app_tail, Permutation_app_comm. }
  assert (rep_p (Full V n hi lo q) p1 h1 ps) as Rp1. { split; auto. eapply rep_full_frame; [exact Rp|]. intros b Hb. apply Fr1, in_or_app. auto. }
  destruct (clear_ok _ _ _ _ Rp1 (has_part _ _ _ H1')) as (p' & h2 & -> & T2 & R2). cbn [hbind]. destruct (has_to_frame _ _ _ _ _ H1' T2) as (_ & Fr2).
  exists (q_of n (hi, lo) p2 cs), {| q_n := 0; q_inner := (zero, zero); q_poly := p'; q_vals := Null; q_ders := Null |}, h2, (ps2 ++ cs). split; [reflexivity|]. split; [|split].
  - eapply to_trans; [apply (to_frame _ _ _ _ (ps ++ cs) T1)|]. apply (to_perm _ _ (ps ++ (ps2 ++ cs)) ([] ++ (ps2 ++ cs))); [now apply to_frame| |reflexivity].
    rewrite !app_assoc. apply Permutation_app_tail, Permutation_app_comm.
  - exists ps2, cs, p2. split; auto. split; [eapply rep_full_frame; [exact R1|]; intros b Hb; apply Fr2, in_or_app; auto|]. split; auto. split; auto.
    apply (arr_same h); [exact F|]. intros b Hb. rewrite Fr2, Fr1; auto; apply in_or_app; auto.
  - split; auto. exists (zero, zero), p'. auto.
Qed.
Lemma move_q_ok n hi lo q o h B : n <> 0 -> full_q n hi lo q o h B -> has h B ->
  exists o' w h' bs, move_q V zero o h = HOk (o', w, h') /\ to h h' B bs /\ full_q n hi lo q o' h' bs /\ rep_q (Empty V) w h' [].
Proof. intros N R H. exact (move_rest (Empty V) (no_basis V zero) n hi lo q o h [] B (empty_p h) N R H). Qed.
Lemma move_assign_q_ok v t n hi lo q o h A B : n <> 0 -> rep_q v t h A -> full_q n hi lo q o h B -> has h (A ++ B) ->
  exists o' w h' bs, move_assign_q V zero t o h = HOk (o', w, h') /\ to h h' (A ++ B) bs /\ full_q n hi lo q o' h' bs /\ rep_q (Empty V) w h' [].
Proof.
  intros N Rt Ro H. unfold move_assign_q. destruct (drop_q_ok v t h A Rt (has_part _ _ _ H)) as (h1 & A1 & x & -> & T1 & R1). cbn [hbind].
  destruct (has_to_frame _ _ _ _ _ H T1) as (H1 & Fr). pose proof (full_q_frame _ _ _ _ _ _ _ _ Ro Fr) as Ro1.
  destruct (move_rest x (q_poly V t) n hi lo q o h1 A1 B R1 N Ro1 H1) as (o' & w & h2 & bs & E & T2 & R2 & W). exists o', w, h2, bs. split; auto. split; auto.
  eapply to_trans; [apply (to_frame _ _ _ _ B T1)|exact T2].
Qed.
Lemma destroy_q_ok v o h A : rep_q v o h A -> has h A -> v <> Raw V -> exists h', destroy_q V o h = HOk h' /\ to h h' A [].
Proof.
  destruct v as [| |n hi lo q]; cbn [rep_q]; intros R H Nr; [congruence| |].
  - destruct R as (-> & inner & p & Rp & ->). unfold destroy_q. cbn [q_vals q_ders q_poly release_all hfold release hbind]. eapply destroy_ok; eauto.
  - destruct R as (N & ps & cs & p & -> & Rp & L & -> & F). unfold destroy_q. rewrite q_of_arrays by auto. cbn [q_poly q_of].
    pose proof (has_perm _ _ _ H (Permutation_app_comm ps cs)) as H'. destruct (release_all_ok cs h (has_part _ _ _ H')) as (h1 & -> & T). cbn [hbind].
    destruct (has_to_frame _ _ _ _ _ H' T) as (H1 & Fr). destruct (destroy_full zero cut_polynomials n hi lo q p h1 ps) as (h2 & -> & T2); [eapply rep_full_frame; eauto|exact H1|].
    exists h2. split; auto. eapply to_trans; [|exact T2]. apply (to_perm _ _ (cs ++ ps) ([] ++ ps)); [now apply to_frame|apply Permutation_app_comm|reflexivity].
Qed.
Lemma cut_tables n hi lo r : cut_polynomials n hi lo r = [map (cut_value hi lo r) (seq 0 n); map (fun k => if inside hi lo r then deriv (scaled hi lo r) k else zero) (seq 0 n); map (cut_rderiv hi lo r) (seq 0 n)].
Proof.
  unfold RadSpec.cut_polynomials, RadSpec.polynomials, RadSpec.cut_value, RadSpec.cut_rderiv. destruct (inside hi lo r); [reflexivity|].
  assert (map (fun _ : nat => zero) (seq 0 n) = repeat zero n) as ->; [|reflexivity]. generalize 0. induction n as [|n IH]; intros a; cbn; [reflexivity|]. now rewrite IH.
Qed.
Lemma build_q_ok n hi lo q o h A r : full_q n hi lo q o h A -> has h A ->
  exists o' h', build_q V zero one vnext dnext mul add scaled coeff inside factor slope o r h = HOk (o', h') /\ to h h' A A /\ full_q n hi lo (Some r) o' h' A.
Proof.
  intros (ps & cs & p & -> & Rp & L & -> & F) H. unfold build_q. cbn [q_poly q_of q_inner fst snd q_n].
  destruct (build_poly_ok n hi lo q p h ps r Rp (has_part _ _ _ H)) as (p1 & h1 & -> & T1 & R1). cbn [hbind]. destruct (has_to_frame _ _ _ _ _ H T1) as (H1 & Fr1).
  assert (Forall2 (arr h1) cs (content_q n hi lo q)) as F1 by (eapply arr_same; eauto).
  pose proof (has_nodup _ _ H1) as Nd. destruct R1 as (L3 & -> & F3). destruct (two _ L) as (c1 & c2 & ->). destruct (three _ L3) as (b0 & b1 & b2 & ->).
  destruct (content_q_len n hi lo q) as (Lq & Ln). destruct (two _ Lq) as (o1 & o2 & Eq). rewrite Eq in F1, Ln.
  cbn [content] in F3. rewrite cut_tables in F3.
  assert (arr h1 b0 (map (cut_value hi lo r) (seq 0 n)) /\ arr h1 b2 (map (cut_rderiv hi lo r) (seq 0 n))) as (A0 & A2).
  { inversion F3 as [|? ? ? ? X0 F4]; subst. inversion F4 as [|? ? ? ? X1 F5]; subst. inversion F5 as [|? ? ? ? X2 F6]; subst. auto. }
  assert (c1 <> c2 /\ b0 <> c1 /\ b0 <> c2 /\ b2 <> c1 /\ b2 <> c2) as (D12 & D01 & D02 & D21 & D22).
  { clear - Nd. cbn in Nd. repeat (apply NoDup_cons_iff in Nd; destruct Nd as (? & Nd)). cbn in *. repeat split; intros ->; tauto. }
  pose proof (has_app_r _ _ _ H1) as Hc. cbn [nth map with_arrays b_vals b_rders q_vals q_ders q_of].
  destruct (in_place n [c1; c2] (q_tables n hi lo r) [o1; o2] h1 (fun h ii =>
    hbind (read V h (At b0) ii) (fun v => hbind (write V h (At c1) ii (mul v (factor hi lo r))) (fun h =>
    hbind (read V h (At b2) ii) (fun d => hbind (read V h (At b0) ii) (fun v => write V h (At c2) ii (add (mul d (factor hi lo r)) (mul v (slope hi lo r))))))))) as (h2 & E2 & T2 & F2); auto.
  - repeat constructor; apply length_map_seq.
  - intros g k Hk Fi. inversion Ln as [|? ? Lo1 Ln']; subst n. inversion Ln' as [|? ? Lo2 _].
    destruct (two_cells _ _ _ c1 c2 o1 o2 h1 g k D12 eq_refl Lo2 Hk Fi) as (g1 & g2 & W1 & Fr & W2 & Fi2).
    destruct Fi as (_ & Frg & _). cbn in Frg.
    assert (arr g b0 (map (cut_value hi lo r) (seq 0 (length o1)))) as B0 by (unfold arr; rewrite Frg; [exact A0|intros [X|[X|[]]]; congruence]).
    rewrite (read_arr _ _ _ k zero B0) by (now rewrite length_map_seq). cbn [hbind]. rewrite nth_map_seq by auto. rewrite W1. cbn [hbind].
    assert (arr g1 b2 (map (cut_rderiv hi lo r) (seq 0 (length o1)))) as C2 by (unfold arr; rewrite Fr; auto).
    assert (arr g1 b0 (map (cut_value hi lo r) (seq 0 (length o1)))) as C0 by (unfold arr; rewrite Fr; auto).
    rewrite (read_arr _ _ _ k zero C2) by (now rewrite length_map_seq). cbn [hbind]. rewrite (read_arr _ _ _ k zero C0) by (now rewrite length_map_seq). cbn [hbind].
    rewrite !nth_map_seq by auto. rewrite W2. eauto.
  - rewrite E2. cbn [hbind]. eexists _, _. split; [reflexivity|].
    pose proof (has_perm _ _ _ H1 (Permutation_app_comm _ _)) as H1'. destruct (has_to_frame _ _ _ _ _ H1' T2) as (_ & Fr2).
    split.
    + eapply to_trans; [apply (to_frame _ _ _ _ [c1; c2] T1)|]. apply (to_perm _ _ ([c1; c2] ++ [b0; b1; b2]) ([c1; c2] ++ [b0; b1; b2])); [now apply to_frame|apply Permutation_app_comm..].
    + exists [b0; b1; b2], [c1; c2]. eexists. split; [reflexivity|]. split; [|split; [reflexivity|split; [reflexivity|exact F2]]].
      split; [reflexivity|]. split; [reflexivity|]. eapply arr_same; [|exact Fr2]. cbn [content]. now rewrite cut_tables.
Qed.
Theorem q_all n l vs : meaning_all V (Raw V) (fun _ _ _ => true) l (repeat None n) = Some vs ->
  exists s, (run V _ q_class l (start V _ n) = HOk s /\ (forall x, seen V _ q_class s x = shows V zero 2 (fun _ _ => []) q_tables (holds V vs x)) /\ in_use V (snd s) = needed V 5 vs) /\ exists bl, inv rep_q s vs bl.
Proof.
  apply (programs q_class (Raw V) (fun _ _ _ => true) 5 (shows V zero 2 (fun _ _ => []) q_tables) rep_q); cbn [c_default c_make c_copy c_move c_assign c_move_assign c_build c_destroy c_look RadModel.q_class].
  - intros v o h bs R. destruct v as [| |n0 hi lo q]; cbn [rep_q] in R; [now destruct R as (-> & _)..|]. destruct R as (N & ps & cs & p & -> & (L & _) & L2 & _). rewrite app_length. lia.
  - exact rep_q_frame.
  - intros h. split; reflexivity.
  - intros n0 hi lo h N. destruct (make_q_ok n0 hi lo h) as (o & h' & bs & E & T & R). exists o, h', bs. split; auto. split; auto. split; auto.
  - intros n0 hi lo r o h B (N & R) H. destruct (assign_rest (Empty V) (no_basis V zero) n0 hi lo r o h [] B (empty_p h) R H) as (o' & h' & bs & E & T & R'). exists o', h', bs. split; auto. split; auto. split; auto.
  - intros n0 hi lo r o h B (N & R) H. destruct (move_q_ok n0 hi lo r o h B N R H) as (o' & w & h' & bs & E & T & R' & W). exists o', w, h', bs. split; auto. split; auto. split; auto. split; auto.
  - intros v t n0 hi lo r o h A B Rt (N & R) H. destruct (assign_q_ok v t n0 hi lo r o h A B Rt R H) as (o' & h' & bs & E & T & R'). exists o', h', bs. split; auto. split; auto. split; auto.
  - intros v t n0 hi lo r o h A B Rt (N & R) H. destruct (move_assign_q_ok v t n0 hi lo r o h A B N Rt R H) as (o' & w & h' & bs & E & T & R' & W). exists o', w, h', bs. split; auto. split; auto. split; auto. split; auto.
  - intros n0 hi lo q o h A r (N & R) H _. destruct (build_q_ok n0 hi lo q o h A r R H) as (o' & h' & E & T & R'). exists o', h', A. split; auto. split; auto. split; auto.
  - exact destroy_q_ok.
  - intros v o h A R. destruct v as [| |n0 hi lo q]; cbn [rep_q] in R.
    + destruct R as (-> & ->). reflexivity.
    + destruct R as (-> & inner & p & _ & ->). reflexivity.
    + destruct R as (N & ps & cs & p & -> & _ & L & -> & F). rewrite q_of_arrays by auto. cbn [q_n q_of].
      apply (look_ok zero q_tables 2 (fun _ _ => []) n0 hi lo q cs (content_q n0 hi lo q)); auto. apply content_q_len.
  - reflexivity.
Qed.
Theorem q_programs n l vs : meaning_all V (Raw V) (fun _ _ _ => true) l (repeat None n) = Some vs ->
  exists s, run V _ q_class l (start V _ n) = HOk s /\ (forall x, seen V _ q_class s x = shows V zero 2 (fun _ _ => []) q_tables (holds V vs x)) /\ in_use V (snd s) = needed V 5 vs.
Proof. intros M. destruct (q_all n l vs M) as (s & P & _). exists s. exact P. Qed.

(** *** Radial functions of basis.h *)
Definition content_rq (n : nat) (hi lo : V) (q : option V) : list (list V) := match q with None => repeat (repeat zero n) 2 | Some r => rq_tables n hi lo r end.
Lemma content_rq_len n hi lo q : length (content_rq n hi lo q) = 2 /\ Forall (fun l => length l = n) (content_rq n hi lo q).
Proof. destruct q; cbn [content_rq]; (split; [reflexivity|]); [repeat constructor; apply length_map_seq|apply zeros_len]. Qed.
Definition rq_of n hi lo b o (cs : list nat) : rq V :=
  {| r_n := n; r_hi := hi; r_lo := lo; r_inner := (hi, lo); r_basis := Some (b, o); r_vals := nth 0 (map At cs) Null; r_ders := nth 1 (map At cs) Null |}.
Definition full_rq n hi lo q (o : rq V) h (bs : list nat) : Prop :=
  exists b ps cs p, bs = ps ++ b :: cs /\ full_r n hi lo q p h ps /\ length cs = 2 /\ o = rq_of n hi lo b p cs /\ Forall2 (arr h) cs (content_rq n hi lo q).
Definition rep_rq (v : held V) (o : rq V) h (bs : list nat) : Prop :=
  match v with
  | Full _ n hi lo q => n <> 0 /\ full_rq n hi lo q o h bs
  | _ => bs = [] /\ exists inner, o = {| r_n := 0; r_hi := zero; r_lo := zero; r_inner := inner; r_basis := None; r_vals := Null; r_ders := Null |}
  end.
Lemma full_rq_frame n hi lo q o h h' bs : full_rq n hi lo q o h bs -> (forall b, In b bs -> nth_error h' b = nth_error h b) -> full_rq n hi lo q o h' bs.
Proof.
  intros (b & ps & cs & p & -> & Rp & L & -> & F) Fr. exists b, ps, cs, p. split; auto. split.
  - eapply rep_full_frame; eauto. intros x Hx. apply Fr, in_or_app. auto.
  - split; auto. split; auto. eapply arr_same; eauto. intros x Hx. apply Fr, in_or_app. cbn. auto.
Qed.
Lemma rep_rq_frame v o h h' bs : rep_rq v o h bs -> (forall b, In b bs -> nth_error h' b = nth_error h b) -> rep_rq v o h' bs.
Proof. destruct v as [| |n hi lo q]; cbn [rep_rq]; auto. intros (N & R) Fr. split; auto. eapply full_rq_frame; eauto. Qed.
Lemma storage_to h : to h (snd (storage V h)) [] [fst (storage V h)].
Proof. apply to_new. Qed.
Lemma make_rq_ok n hi lo h : exists o h' bs, make_rq V zero n hi lo h = HOk (o, h') /\ to h h' [] bs /\ full_rq n hi lo None o h' bs.
Proof.
  unfold make_rq. pose proof (storage_to h) as T0. destruct (storage V h) as [b h0]. cbn [fst snd] in T0.
  destruct (make_ok zero polynomials n hi lo h0) as (o & h1 & ps & -> & T1 & R1). cbn [hbind]. rewrite alloc_all_eq. destruct (fill_new zero n 2 h1) as (h2 & -> & T2 & F2). cbn [hbind].
  set (cs := seq (length h1) 2) in *. exists (rq_of n hi lo b o cs), h2, (ps ++ b :: cs). split; [reflexivity|].
  assert (to h h1 [] (ps ++ [b])) as T01 by (eapply to_trans; [exact T0|apply (to_frame _ _ [] ps [b] T1)]).
  split.
  - eapply to_trans; [exact T01|]. apply (to_perm _ _ ([] ++ (ps ++ [b])) (cs ++ (ps ++ [b]))); [now apply to_frame|reflexivity|].
    rewrite Permutation_app_comm, <- app_assoc. reflexivity.
  - exists b, ps, cs, o. split; auto. split; [|split; [apply seq_length|split; auto]]. pose proof (has_to _ _ _ _ (has_nil h) T01) as H1.
    destruct (has_to_frame h1 h2 [] cs _ H1 T2) as (_ & Fr). eapply rep_full_frame; [exact R1|]. intros x Hx. apply Fr, in_or_app. auto.
Qed.
Lemma rq_of_arrays n hi lo b p cs : length cs = 2 -> [r_vals V (rq_of n hi lo b p cs); r_ders V (rq_of n hi lo b p cs)] = map At cs.
Proof. intros L. destruct (two _ L) as (a & c & ->). reflexivity. Qed.
Lemma copy_rq_ok n hi lo q o h B : n <> 0 -> full_rq n hi lo q o h B -> has h B ->
  exists o' h' bs, copy_rq V zero o h = HOk (o', h') /\ to h h' [] bs /\ full_rq n hi lo q o' h' bs.
Proof.
  intros N (b0 & ps0 & cs0 & p0 & -> & Rp & L & -> & F) H. unfold copy_rq. rewrite rq_of_arrays by auto. cbn [r_basis rq_of r_n r_hi r_lo r_inner].
  pose proof (storage_to h) as T0. destruct (storage V h) as [b h0]. cbn [fst snd] in T0. destruct (has_to_frame h h0 [] [b] _ H T0) as (H0 & Fr0).
  assert (full_r n hi lo q p0 h0 ps0) as Rp0 by (eapply rep_full_frame; [exact Rp|]; intros x Hx; apply Fr0, in_or_app; auto).
  assert (has h0 ([] ++ ps0)) as Hp. { cbn. apply has_app_r in H0. exact (has_part _ _ _ H0). }
  destruct (assign_rb_ok zero _ poly_len (Empty V) (no_basis V zero) n hi lo q p0 h0 [] ps0 N (empty_r h0) Rp0 Hp) as (o & h1 & ps & -> & T1 & R1). cbn [hbind].
  destruct (has_to_frame h0 h1 [] ps _ H0 T1) as (H1 & Fr1). pose proof N as N'. apply Nat.eqb_neq in N'. rewrite N'.
  rewrite alloc_all_eq. destruct (content_rq_len n hi lo q) as (L2 & Ln).
  assert (Forall2 (arr h1) cs0 (content_rq n hi lo q)) as F1.
  { apply (arr_same h); [exact F|]. intros x Hx. assert (In x (ps0 ++ b0 :: cs0)) as Hx' by (apply in_or_app; right; now right). rewrite Fr1, Fr0; auto. apply in_or_app. now right. }
  destruct (copy_new n cs0 _ h1 F1 Ln) as (h2 & E & T2 & F2). rewrite L2 in *. rewrite E. cbn [hbind]. set (cs := seq (length h1) 2) in *.
  exists (rq_of n hi lo b o cs), h2, (ps ++ b :: cs). split; [reflexivity|].
  assert (to h h1 [] (ps ++ [b])) as T01 by (eapply to_trans; [exact T0|apply (to_frame _ _ [] ps [b] T1)]).
  split.
  - eapply to_trans; [exact T01|]. apply (to_perm _ _ ([] ++ (ps ++ [b])) (cs ++ (ps ++ [b]))); [now apply to_frame|reflexivity|].
    rewrite Permutation_app_comm, <- app_assoc. reflexivity.
  - exists b, ps, cs, o. split; auto. split; [|split; [apply seq_length|split; auto]].
    destruct (has_to_frame h1 h2 [] cs _ H1 T2) as (_ & Fr). eapply rep_full_frame; [exact R1|]. intros x Hx. apply Fr, in_or_app. auto.
Qed.
Lemma free_full n hi lo q o h A : full_rq n hi lo q o h A -> has h A ->
  exists h', hbind (delete_basis V (r_basis V o) h) (release_all V [r_vals V o; r_ders V o]) = HOk h' /\ to h h' A [].
Proof.
  intros (b & ps & cs & p & -> & Rp & L & -> & F) H. rewrite rq_of_arrays by auto. cbn [r_basis rq_of delete_basis].
  destruct (destroy_full zero polynomials n hi lo q p h ps Rp (has_part _ _ _ H)) as (h1 & -> & T1). cbn [hbind]. destruct (has_to_frame _ _ _ _ _ H T1) as (H1 & _). cbn [app] in H1.
  pose proof (has_alive _ _ b H1 (or_introl eq_refl)) as Al. rewrite release_at by auto. cbn [hbind].
  pose proof (has_cons_free _ _ _ H1) as H2. destruct (release_all_ok cs _ H2) as (h3 & -> & T3). exists h3. split; auto.
  eapply to_trans; [apply (to_frame _ _ _ _ (b :: cs) T1)|]. eapply to_trans; [apply (to_frame _ _ [b] [] cs), to_free, Al|exact T3].
Qed.
Lemma drop_rq_ok v t h A : rep_rq v t h A -> has h A -> exists h', drop_rq V t h = HOk h' /\ to h h' A [].
Proof.
  unfold drop_rq. destruct v as [| |n hi lo q]; cbn [rep_rq].
  1,2: intros (-> & inner & ->) _; exists h; split; [reflexivity|apply to_refl].
  intros (N & R) H. pose proof R as (b & ps & cs & p & _ & _ & _ & Eo & _). assert (r_n V t =? 0 = false) as -> by (rewrite Eo; cbn; now apply Nat.eqb_neq). eapply free_full; eauto.
Qed.
Lemma destroy_rq_ok v o h A : rep_rq v o h A -> has h A -> exists h', destroy_rq V o h = HOk h' /\ to h h' A [].
Proof.
  unfold destroy_rq. destruct v as [| |n hi lo q]; cbn [rep_rq].
  1,2: intros (-> & inner & ->) _; exists h; split; [reflexivity|apply to_refl].
  intros (N & R) H. eapply free_full; eauto.
Qed.
Lemma build_rq_ok n hi lo q o h A r : full_rq n hi lo q o h A -> has h A -> accepted hi lo r = true ->
  exists o' h', build_rq V zero one vnext dnext mul add scaled coeff accepted factor slope o r h = HOk (o', h') /\ to h h' A A /\ full_rq n hi lo (Some r) o' h' A.
Proof.
  intros (b & ps & cs & p & -> & Rp & L & -> & F) H Ac. unfold build_rq. cbn [r_basis rq_of r_inner fst snd r_n r_hi r_lo]. rewrite Ac.
  destruct (build_rb_ok n hi lo q p h ps r Rp (has_part _ _ _ H) Ac) as (p1 & h1 & -> & T1 & R1). cbn [hbind]. rewrite andb_false_r. destruct (has_to_frame _ _ _ _ _ H T1) as (H1 & Fr1).
  assert (Forall2 (arr h1) cs (content_rq n hi lo q)) as F1 by (eapply arr_same; eauto; intros x Hx; apply Fr1; cbn; auto).
  pose proof (has_nodup _ _ H1) as Nd. destruct R1 as (L3 & -> & F3). destruct (two _ L) as (c1 & c2 & ->). destruct (three _ L3) as (b0 & b1 & b2 & ->).
  destruct (content_rq_len n hi lo q) as (Lq & Ln). destruct (two _ Lq) as (o1 & o2 & Eq). rewrite Eq in F1, Ln.
  cbn [content] in F3. unfold RadSpec.polynomials in F3.
  assert (arr h1 b0 (map (value (scaled hi lo r)) (seq 0 n)) /\ arr h1 b2 (map (rderiv hi lo r) (seq 0 n))) as (A0 & A2).
  { inversion F3 as [|? ? ? ? X0 F4]; subst. inversion F4 as [|? ? ? ? X1 F5]; subst. inversion F5 as [|? ? ? ? X2 F6]; subst. auto. }
  assert (c1 <> c2 /\ b0 <> c1 /\ b0 <> c2 /\ b2 <> c1 /\ b2 <> c2) as (D12 & D01 & D02 & D21 & D22).
  { clear - Nd. cbn in Nd. repeat (apply NoDup_cons_iff in Nd; destruct Nd as (? & Nd)). cbn in *. repeat split; intros ->; tauto. }
  assert (Permutation ([b0; b1; b2] ++ [b; c1; c2]) ([c1; c2] ++ [b0; b1; b2; b])) as Pm.
  { change [b; c1; c2] with ([b] ++ [c1; c2]). rewrite app_assoc. apply Permutation_app_comm. }
  pose proof (has_perm _ _ _ H1 Pm) as H1'. pose proof (has_part _ _ _ H1') as Hc. cbn [nth map with_arrays b_vals b_rders r_vals r_ders rq_of].
  destruct (in_place n [c1; c2] (rq_tables n hi lo r) [o1; o2] h1 (fun h ii =>
    hbind (read V h (At b0) ii) (fun v => hbind (write V h (At c1) ii (mul (factor hi lo r) v)) (fun h =>
    hbind (read V h (At b0) ii) (fun v => hbind (read V h (At b2) ii) (fun d => write V h (At c2) ii (add (mul (slope hi lo r) v) (mul (factor hi lo r) d)))))))) as (h2 & E2 & T2 & F2); auto.
  - repeat constructor; apply length_map_seq.
  - intros g k Hk Fi. inversion Ln as [|? ? Lo1 Ln']; subst n. inversion Ln' as [|? ? Lo2 _].
    destruct (two_cells _ _ _ c1 c2 o1 o2 h1 g k D12 eq_refl Lo2 Hk Fi) as (g1 & g2 & W1 & Fr & W2 & Fi2).
    destruct Fi as (_ & Frg & _). cbn in Frg.
    assert (arr g b0 (map (value (scaled hi lo r)) (seq 0 (length o1)))) as B0 by (unfold arr; rewrite Frg; [exact A0|intros [X|[X|[]]]; congruence]).
    rewrite (read_arr _ _ _ k zero B0) by (now rewrite length_map_seq). cbn [hbind]. rewrite nth_map_seq by auto. rewrite W1. cbn [hbind].
    assert (arr g1 b2 (map (rderiv hi lo r) (seq 0 (length o1)))) as C2 by (unfold arr; rewrite Fr; auto).
    assert (arr g1 b0 (map (value (scaled hi lo r)) (seq 0 (length o1)))) as C0 by (unfold arr; rewrite Fr; auto).
    rewrite (read_arr _ _ _ k zero C0) by (now rewrite length_map_seq). cbn [hbind]. rewrite (read_arr _ _ _ k zero C2) by (now rewrite length_map_seq). cbn [hbind].
    rewrite !nth_map_seq by auto. rewrite W2. eauto.
  - rewrite E2. cbn [hbind]. eexists _, _. split; [reflexivity|].
    destruct (has_to_frame _ _ _ _ _ H1' T2) as (_ & Fr2).
    split.
    + eapply to_trans; [apply (to_frame _ _ _ _ [b; c1; c2] T1)|]. apply (to_perm _ _ ([c1; c2] ++ [b0; b1; b2; b]) ([c1; c2] ++ [b0; b1; b2; b])); [now apply to_frame|now symmetry..].
    + exists b, [b0; b1; b2], [c1; c2]. eexists. split; [reflexivity|]. split; [|split; [reflexivity|split; [reflexivity|exact F2]]].
      split; [reflexivity|]. split; [reflexivity|]. eapply arr_same; [exact F3|]. intros x Hx. apply Fr2. cbn in Hx |- *. tauto.
Qed.
Theorem rq_all n l vs : meaning_all V (Empty V) accepted l (repeat None n) = Some vs ->
  exists s, (run V _ rq_class l (start V _ n) = HOk s /\ (forall x, seen V _ rq_class s x = shows V zero 2 (fun hi lo => [hi; lo]) rq_tables (holds V vs x)) /\ in_use V (snd s) = needed V 6 vs) /\ exists bl, inv rep_rq s vs bl.
Proof.
  apply (programs rq_class (Empty V) accepted 6 (shows V zero 2 (fun hi lo => [hi; lo]) rq_tables) rep_rq); cbn [c_default c_make c_copy c_move c_assign c_move_assign c_build c_destroy c_look RadModel.rq_class].
  - intros v o h bs R. destruct v as [| |n0 hi lo q]; cbn [rep_rq] in R; [now destruct R as (-> & _)..|]. destruct R as (N & b & ps & cs & p & -> & (L & _) & L2 & _). rewrite app_length. cbn. lia.
  - exact rep_rq_frame.
  - intros h. split; [reflexivity|]. eexists. reflexivity.
  - intros n0 hi lo h N. destruct (make_rq_ok n0 hi lo h) as (o & h' & bs & E & T & R). exists o, h', bs. split; auto. split; auto. split; auto.
  - intros n0 hi lo r o h B (N & R) H. destruct (copy_rq_ok n0 hi lo r o h B N R H) as (o' & h' & bs & E & T & R'). exists o', h', bs. split; auto. split; auto. split; auto.
  - intros n0 hi lo r o h B (N & R) H. exists o, (moved_rq V zero o), h, B. split; [reflexivity|]. split; [apply to_refl|]. split; [split; auto|]. split; [reflexivity|]. eexists. reflexivity.
  - intros v t n0 hi lo r o h A B Rt (N & R) H. unfold assign_rq. destruct (drop_rq_ok v t h A Rt (has_part _ _ _ H)) as (h1 & -> & T1). cbn [hbind].
    destruct (has_to_frame _ _ _ _ _ H T1) as (H1 & Fr). destruct (copy_rq_ok n0 hi lo r o h1 B N (full_rq_frame _ _ _ _ _ _ _ _ R Fr) H1) as (o' & h' & bs & E & T & R'). rewrite E.
    exists o', h', bs. split; auto. split; [eapply to_trans; eauto|]. split; auto.
  - intros v t n0 hi lo r o h A B Rt (N & R) H. unfold move_assign_rq. destruct (drop_rq_ok v t h A Rt (has_part _ _ _ H)) as (h1 & -> & T1). cbn [hbind].
    destruct (has_to_frame _ _ _ _ _ H T1) as (H1 & Fr). exists o, (moved_rq V zero o), h1, B. split; [reflexivity|]. split; [apply (to_frame _ _ A [] B T1)|].
    split; [split; auto; eapply full_rq_frame; eauto|]. split; [reflexivity|]. eexists. reflexivity.
  - intros n0 hi lo q o h A r (N & R) H Ac. destruct (build_rq_ok n0 hi lo q o h A r R H Ac) as (o' & h' & E & T & R'). exists o', h', A. split; auto. split; auto. split; auto.
  - intros v o h A R H _. eapply destroy_rq_ok; eauto.
  - intros v o h A R. destruct v as [| |n0 hi lo q]; cbn [rep_rq] in R.
    1,2: destruct R as (-> & inner & ->); reflexivity.
    destruct R as (N & b & ps & cs & p & -> & _ & L & -> & F). rewrite rq_of_arrays by auto. cbn [r_n rq_of r_hi r_lo].
    apply (look_ok zero rq_tables 2 (fun hi lo => [hi; lo]) n0 hi lo q cs (content_rq n0 hi lo q)); auto. apply content_rq_len.
  - reflexivity.
Qed.
Theorem rq_programs n l vs : meaning_all V (Empty V) accepted l (repeat None n) = Some vs ->
  exists s, run V _ rq_class l (start V _ n) = HOk s /\ (forall x, seen V _ rq_class s x = shows V zero 2 (fun hi lo => [hi; lo]) rq_tables (holds V vs x)) /\ in_use V (snd s) = needed V 6 vs.
Proof. intros M. destruct (rq_all n l vs M) as (s & P & _). exists s. exact P. Qed.
End Numbers.
