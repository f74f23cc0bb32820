(** Proofs about the memory of [TildeR]: all variables and all programs. *)
From Verif Require Import HeapModel HeapProofs TildeMemModel TildeMemSpec TildeMemProofs.
Local Open Scope nat_scope.
Local Open Scope list_scope.

Definition tslot (h : heap) (o : option tilde) (v : option tvalue) (own : list nat) : Prop :=
  match o, v with None, None => own = [] | Some o, Some v => rep h o v own | _, _ => False end.
Record tinv (vs : tvalues) (lost : nat) (s : tstore) (own : nat -> list nat) : Prop := {
  ti_len : length (fst s) = length vs;
  ti_slot : forall x, x < length vs -> exists o v, nth_error (fst s) x = Some o /\ nth_error vs x = Some v /\ tslot (snd s) o v (own x);
  ti_apart : forall x y b, x < length vs -> y < length vs -> x <> y -> In b (own x) -> ~ In b (own y);
  ti_use : blocks_in_use (snd s) = tneeded_all vs + lost }.

Lemma slot_lt h o v own b : tslot h o v own -> In b own -> b < length h.
Proof. destruct o as [o|], v as [v|]; cbn [tslot]; try easy; [apply rep_lt|intros -> []]. Qed.
Lemma slot_frame h h' o v own : (forall b, In b own -> nth_error h' b = nth_error h b) -> tslot h o v own -> tslot h' o v own.
Proof. destruct o as [o|], v as [v|]; cbn [tslot]; try easy. apply rep_frame. Qed.
Lemma nth_same {A} (l : list A) x a : x < length l -> nth_error (replace l x a) x = Some a.
Proof. intros L. rewrite replace_nth, Nat.eqb_refl. now destruct (Nat.ltb_spec x (length l)); [|lia]. Qed.
Lemma nth_other {A} (l : list A) x y a : y <> x -> nth_error (replace l x a) y = nth_error l y.
Proof. intros H. rewrite replace_nth. now destruct (Nat.eqb_spec y x). Qed.
Lemma needed_replace vs x v v' : nth_error vs x = Some v -> tneeded_all (replace vs x v') + tneeded v = tneeded_all vs + tneeded v'.
Proof.
  unfold tneeded_all. revert x. induction vs as [|w vs IH]; intros [|x]; cbn [nth_error replace map list_sum fold_right]; try discriminate.
  - intros E. injection E as ->. change (fold_right Nat.add 0) with list_sum. lia.
  - intros E. specialize (IH x E). change (fold_right Nat.add 0) with list_sum in *. lia.
Qed.

Lemma tinv_start n : tinv (tnone n) 0 (tstart n) (fun _ => []).
Proof.
  unfold tnone. constructor; cbn [tstart fst snd].
  - now rewrite !repeat_length.
  - intros x Hx. rewrite repeat_length in Hx. exists None, None.
    assert (forall A, nth_error (repeat (@None A) n) x = Some None) as H.
    { intros A. rewrite (nth_error_nth' _ None) by (rewrite repeat_length; auto). f_equal. apply nth_repeat. }
    repeat split; auto.
  - intros x y b _ _ _ [].
  - unfold tneeded_all. induction n; [reflexivity|]. exact IHn.
Qed.
Lemma tinv_update vs lost lost' st h own x v o' v' h' new : tinv vs lost (st, h) own -> nth_error vs x = Some v ->
  length h <= length h' -> (forall b, b < length h -> ~ In b (own x) -> nth_error h' b = nth_error h b) ->
  (forall b, In b new -> length h <= b) -> tslot h' o' v' new ->
  blocks_in_use h' + tneeded v + lost = blocks_in_use h + tneeded v' + lost' ->
  tinv (replace vs x v') lost' (replace st x o', h') (fun y => if y =? x then new else own y).
Proof.
  intros I Ev L F N Sl U. destruct I as [Il Is Ia Iu]. cbn [fst snd] in *.
  assert (Hx : x < length vs) by (apply nth_error_Some; congruence).
  assert (Hlt : forall w c, w < length vs -> In c (own w) -> c < length h).
  { intros w c Hw Hc. destruct (Is w Hw) as (o & v0 & _ & _ & Sw). eapply slot_lt; eauto. }
  constructor; cbn [fst snd].
  - now rewrite !replace_length.
  - rewrite replace_length. intros y Hy. destruct (Nat.eqb_spec y x) as [->|Hne].
    + exists o', v'. rewrite !nth_same by lia. auto.
    + destruct (Is y Hy) as (o & v0 & E1 & E2 & Sy). exists o, v0. rewrite !nth_other by lia. repeat split; auto.
      eapply slot_frame; [|exact Sy]. intros b Hb. apply F; [eapply Hlt; eauto|]. intros Hc. apply (Ia y x b); auto.
  - rewrite replace_length. intros y z b Hy Hz Hne Hb.
    destruct (Nat.eqb_spec y x) as [->|Hy']; destruct (Nat.eqb_spec z x) as [->|Hz']; try lia.
    + intros Hc. specialize (N b Hb). specialize (Hlt z b Hz Hc). lia.
    + intros Hc. specialize (N b Hc). specialize (Hlt y b Hy Hb). lia.
    + apply (Ia y z b); auto.
  - pose proof (needed_replace vs x v v' Ev). lia.
Qed.

Lemma holds_inv vs lost st h own x : tinv vs lost (st, h) own ->
  match tholds vs x with
  | Some v => x < length vs /\ nth_error vs x = Some (Some v) /\ exists o, tobject st x = HOk o /\ nth_error st x = Some (Some o) /\ rep h o v (own x)
  | None => tobject st x = HErr NoObject
  end.
Proof.
  intros [Il Is Ia Iu]. cbn [fst snd] in *. unfold tholds, tobject. destruct (Nat.lt_ge_cases x (length vs)) as [Hx|Hx].
  - destruct (Is x Hx) as (o & v & E1 & E2 & Sx). rewrite E1, E2. destruct o as [o|], v as [v|]; cbn [tslot] in Sx; try contradiction; auto.
    repeat split; auto. exists o. auto.
  - rewrite (proj2 (nth_error_None vs x)) by lia. rewrite (proj2 (nth_error_None st x)) by lia. reflexivity.
Qed.
Lemma vacant_inv vs lost st h own x : tinv vs lost (st, h) own ->
  if tvacant vs x then nth_error vs x = Some None /\ nth_error st x = Some None /\ own x = []
  else match nth_error st x with Some None => False | _ => True end.
Proof.
  intros [Il Is Ia Iu]. cbn [fst snd] in *. unfold tvacant. destruct (Nat.lt_ge_cases x (length vs)) as [Hx|Hx].
  - destruct (Is x Hx) as (o & v & E1 & E2 & Sx). rewrite E1, E2. destruct o as [o|], v as [v|]; cbn [tslot] in Sx; try contradiction; auto.
  - rewrite (proj2 (nth_error_None vs x)) by lia. rewrite (proj2 (nth_error_None st x)) by lia. exact I.
Qed.
Lemma construct_none vs lost st h own x r : tinv vs lost (st, h) own -> tvacant vs x = false -> tconstruct x r (st, h) = HErr NoObject.
Proof.
  intros I E. pose proof (vacant_inv vs lost st h own x I) as V. rewrite E in V. unfold tconstruct. cbn [fst].
  destruct (nth_error st x) as [[o|]|]; try contradiction; reflexivity.
Qed.
(** A construction that adds blocks to the end of memory. *)
Lemma construct_adds vs lost lost' st h own x r o v e new : tinv vs lost (st, h) own -> tvacant vs x = true -> r h = HOk (o, h ++ e) ->
  rep (h ++ e) o v new -> (forall b, In b new -> length h <= b) -> blocks_in_use e + lost = tneeded (Some v) + lost' ->
  exists own', exists s, tconstruct x r (st, h) = HOk s /\ tinv (replace vs x (Some v)) lost' s own'.
Proof.
  intros I E Er R N U. pose proof (vacant_inv vs lost st h own x I) as V. rewrite E in V. destruct V as (E1 & E2 & E3).
  unfold tconstruct. cbn [fst snd]. rewrite E2, Er. cbn [hbind]. do 2 eexists. split; [reflexivity|].
  eapply tinv_update with (v := None) (new := new); eauto.
  - rewrite app_length. lia.
  - intros b Hb _. now apply nth_error_app1.
  - rewrite use_app. cbn [tneeded] in *. lia.
Qed.
Lemma four_use l1 l2 l3 l4 : blocks_in_use (four l1 l2 l3 l4) = 4. Proof. reflexivity. Qed.

Lemma step_ok c vs lost s own : tinv vs lost s own -> proper c ->
  match tmeaning c (vs, lost) with
  | Some (vs', lost') => exists s' own', tstep c s = HOk s' /\ tinv vs' lost' s' own'
  | None => exists e, tstep c s = HErr e
  end.
Proof.
  intros I P. destruct s as [st h]. destruct c as [x|x nl cs ns counts smooth|x y|x y|x]; cbn [tmeaning tstep].
  - destruct (tvacant vs x) eqn:V; [|exists NoObject; eapply construct_none; eauto].
    destruct (construct_adds vs lost lost st h own x (fun h => HOk (t_default, h)) t_default tnothing [] [] I V) as (own' & s & E & I').
    + now rewrite app_nil_r.
    + unfold rep. cbn. auto 10.
    + intros b [].
    + reflexivity.
    + eauto.
  - destruct (tvacant vs x) eqn:V; [|exists NoObject; eapply construct_none; eauto].
    destruct P as (So & Hc & Hn). pose proof (make_ok nl cs ns counts smooth h So Hc Hn) as M. destruct (tmade nl cs ns counts smooth) as [v|].
    + destruct M as (o & l1 & l2 & l3 & l4 & E & Hv & R).
      destruct (construct_adds vs lost lost st h own x _ o v _ _ I V E R) as (own' & s & E' & I').
      * cbn [In]. lia.
      * rewrite four_use. cbn [tneeded]. destruct (v_centers v); [contradiction|reflexivity].
      * eauto.
    + destruct M as [e E]. exists e. pose proof (vacant_inv vs lost st h own x I) as W. rewrite V in W. destruct W as (_ & W & _).
      unfold tconstruct. cbn [fst snd]. now rewrite W, E.
  - cbn [fst]. pose proof (holds_inv vs lost st h own y I) as Hy. destruct (tholds vs y) as [v|].
    2: { rewrite Hy. destruct (tvacant vs x); exists NoObject; reflexivity. }
    destruct Hy as (_ & _ & o & Eo & _ & R). rewrite Eo. cbn [hbind]. destruct (tvacant vs x) eqn:V; [|exists NoObject; eapply construct_none; eauto].
    pose proof (vacant_inv vs lost st h own x I) as W. rewrite V in W. destruct W as (_ & W & _).
    destruct (v_centers v) as [|p [|p' l]] eqn:Ec.
    + destruct R as (H1 & H2 & H3 & H4 & H5 & R). rewrite Ec in *. destruct R as [Ev _]. rewrite Ev in H5. cbn [length] in *.
      destruct (construct_adds vs lost (lost + 4) st h own x _ _ v _ [] I V (copy_empty o h H4 H5)) as (own' & s & E' & I').
      * unfold rep. cbn [t_list t_rcut t_smooth t_nc t_nn]. rewrite Ec, Ev. auto 10.
      * intros b [].
      * cbn [tneeded]. rewrite Ec. cbn. lia.
      * eauto.
    + destruct (v_neighs v) as [|q [|q' m]] eqn:En.
      * destruct R as (_ & _ & _ & _ & _ & R). rewrite Ec in R. destruct R as [R _]. congruence.
      * destruct (copy_one o v h (own y) p q R Ec En) as (o' & l1 & l2 & l3 & l4 & E & R').
        destruct (construct_adds vs lost lost st h own x _ o' v _ _ I V E R') as (own' & s & E' & I').
        -- cbn [In]. lia.
        -- rewrite four_use. cbn [tneeded]. now rewrite Ec.
        -- eauto.
      * exists OutOfBounds. unfold tconstruct. cbn [fst snd]. rewrite W, (copy_more o v h (own y) R); [reflexivity|congruence|]. rewrite En. cbn. right. lia.
    + exists OutOfBounds. unfold tconstruct. cbn [fst snd]. rewrite W, (copy_more o v h (own y) R); [reflexivity|congruence|]. rewrite Ec. cbn. left. lia.
  - unfold tassign. cbn [fst snd]. pose proof (holds_inv vs lost st h own x I) as Hx. pose proof (holds_inv vs lost st h own y I) as Hy.
    destruct (tholds vs x) as [vx|] eqn:Ex; [|rewrite Hx; exists NoObject; reflexivity].
    destruct Hx as (Lx & Nx & ox & Eox & Nox & Rx). rewrite Eox. cbn [hbind].
    destruct (clear_ok h ox vx (own x) Rx) as (o1 & h1 & E1 & (L1 & F1 & U1) & Z1 & Z2 & Q1 & Q2 & Q3). rewrite E1. cbn [hbind].
    assert (Lst : x < length st) by (apply nth_error_Some; congruence).
    assert (Ux : length (own x) = tneeded (Some vx)).
    { destruct Rx as (_ & _ & _ & _ & _ & R). cbn [tneeded]. destruct (v_centers vx); [now destruct R as [_ ->]|]. now destruct R as (_ & a & b & c & d & _ & -> & _). }
    assert (Twice : forall o, replace (replace st x (Some o1)) x (Some o) = replace st x (Some o)) by (intros; apply replace_again).
    destruct (Nat.eqb_spec x y) as [<-|Hne].
    + rewrite Ex in Hy |- *. unfold tobject. rewrite nth_same by auto. cbn [hbind andb]. rewrite Q1.
      destruct (nl_lists (v_list vx)) as [|l0 ll]; cbn [length Nat.eqb negb]; [|exists UseAfterFree; reflexivity].
      rewrite take_empty by auto. cbn [hbind]. do 2 eexists. split; [reflexivity|]. rewrite Twice.
      eapply tinv_update with (v := Some vx) (new := []); eauto.
      * lia.
      * intros b [].
      * unfold tslot, rep. cbn [t_list t_rcut t_smooth t_nc t_nn v_list v_centers v_neighs v_rcut v_smooth]. auto 10.
      * cbn [tneeded v_centers] in *. lia.
    + assert (Eobj : tobject (replace st x (Some o1)) y = tobject st y) by (unfold tobject; now rewrite nth_other by auto). rewrite Eobj.
      destruct (tholds vs y) as [vy|] eqn:Ey; [|rewrite Hy; exists NoObject; reflexivity].
      destruct Hy as (Ly & Ny & oy & Eoy & Noy & Ry). rewrite Eoy. cbn [hbind andb].
      assert (Ry1 : rep h1 oy vy (own y)).
      { eapply rep_frame; [|exact Ry]. intros b Hb. apply F1. intros Hc. apply (ti_apart _ _ _ _ I y x b); auto. }
      destruct (v_centers vy) as [|p l] eqn:Ec.
      * pose proof Ry1 as (K1 & K2 & K3 & K4 & K5 & K6). rewrite Ec in *. destruct K6 as [Ev _]. rewrite Ev in K5. cbn [length] in *.
        rewrite take_empty by auto. cbn [hbind]. do 2 eexists. split; [reflexivity|]. rewrite Twice.
        eapply tinv_update with (v := Some vx) (new := []); eauto.
        -- lia.
        -- intros b [].
        -- unfold tslot, rep. cbn [t_list t_rcut t_smooth t_nc t_nn]. rewrite Ec, Ev. auto 10.
        -- cbn [tneeded] in *. rewrite Ec. lia.
      * destruct (take_full o1 oy vy h1 (own y) Ry1) as (o' & l1 & l2 & l3 & l4 & E & R'); [congruence|]. rewrite E. cbn [hbind].
        do 2 eexists. split; [reflexivity|]. rewrite Twice.
        eapply tinv_update with (v := Some vx) (new := [length h1; 2 + length h1; 1 + length h1; 3 + length h1]); eauto.
        -- rewrite app_length. lia.
        -- intros b Hb Hn. rewrite nth_error_app1 by lia. now apply F1.
        -- cbn [In]. lia.
        -- rewrite use_app, four_use. cbn [tneeded] in *. rewrite Ec. lia.
  - cbn [fst snd]. pose proof (holds_inv vs lost st h own x I) as Hx. destruct (tholds vs x) as [v|]; [|rewrite Hx; exists NoObject; reflexivity].
    destruct Hx as (Lx & Nx & o & Eo & No & R). rewrite Eo. cbn [hbind]. destruct (destroy_ok h o v (own x) R) as (h1 & E1 & L1 & F1 & U1). rewrite E1. cbn [hbind].
    assert (Ux : length (own x) = tneeded (Some v)).
    { destruct R as (_ & _ & _ & _ & _ & R). cbn [tneeded]. destruct (v_centers v); [now destruct R as [_ ->]|]. now destruct R as (_ & a & b & c & d & _ & -> & _). }
    do 2 eexists. split; [reflexivity|]. eapply tinv_update with (v := Some v) (new := []); eauto.
    + lia.
    + intros b [].
    + reflexivity.
    + cbn [tneeded] in *. lia.
Qed.

Lemma run_ok l vs lost s own : tinv vs lost s own -> Forall proper l ->
  match tmeaning_all l (vs, lost) with
  | Some (vs', lost') => exists s' own', trun l s = HOk s' /\ tinv vs' lost' s' own'
  | None => exists e, trun l s = HErr e
  end.
Proof.
  revert vs lost s own. induction l as [|c l IH]; intros vs lost s own I P; cbn [tmeaning_all trun]; [eauto|]. inversion P as [|? ? P1 P2]; subst.
  pose proof (step_ok c vs lost s own I P1) as St. destruct (tmeaning c (vs, lost)) as [[vs' lost']|].
  - destruct St as (s' & own' & E & I'). rewrite E. cbn [hbind]. now apply (IH vs' lost' s' own').
  - destruct St as [e E]. rewrite E. cbn [hbind]. eauto.
Qed.
Lemma seen_inv vs lost s own x : tinv vs lost s own -> tseen s x = texpected (tholds vs x).
Proof.
  intros I. destruct s as [st h]. pose proof (holds_inv vs lost st h own x I) as H. unfold tseen. cbn [fst snd]. destruct (tholds vs x) as [v|].
  - destruct H as (_ & _ & o & E & _ & R). rewrite E. cbn [hbind texpected]. now apply show_ok with (own x).
  - now rewrite H.
Qed.
Lemma tprograms l n : Forall proper l ->
  match tmeaning_all l (tnone n, 0) with
  | Some (vs, lost) => exists s, trun l (tstart n) = HOk s /\ (forall x, tseen s x = texpected (tholds vs x)) /\ blocks_in_use (snd s) = tneeded_all vs + lost
  | None => exists e, trun l (tstart n) = HErr e
  end.
Proof.
  intros P. pose proof (run_ok l _ _ _ _ (tinv_start n) P) as R. destruct (tmeaning_all l (tnone n, 0)) as [[vs lost]|]; [|exact R].
  destruct R as (s & own & E & I). exists s. split; [exact E|]. split; [intros x; eapply seen_inv; eauto|]. now destruct I.
Qed.

(** ** Consequences *)
Lemma trun_app l1 l2 s : trun (l1 ++ l2) s = hbind (trun l1 s) (trun l2).
Proof. revert s. induction l1 as [|c l1 IH]; intros s; [reflexivity|]. cbn [app trun]. destruct (tstep c s); cbn [hbind]; auto. Qed.
Lemma ran l n s : Forall proper l -> trun l (tstart n) = HOk s -> exists vs lost own, tmeaning_all l (tnone n, 0) = Some (vs, lost) /\ tinv vs lost s own.
Proof.
  intros P E. pose proof (run_ok l _ _ _ _ (tinv_start n) P) as R. destruct (tmeaning_all l (tnone n, 0)) as [[vs lost]|].
  - destruct R as (s' & own & E' & I). assert (s' = s) as -> by congruence. eauto.
  - destruct R as [e R]. congruence.
Qed.
Lemma holds_other (vs : tvalues) x y w : y <> x -> tholds (replace vs x w) y = tholds vs y.
Proof. intros H. unfold tholds. now rewrite nth_other. Qed.
Lemma meaning_other c vs lost vs' lost' x : tmeaning c (vs, lost) = Some (vs', lost') -> ttarget c <> x -> tholds vs' x = tholds vs x.
Proof.
  destruct c as [y|y nl cs ns counts smooth|y z|y z|y]; cbn [tmeaning ttarget]; intros E H.
  - destruct (tvacant vs y); [|discriminate]. injection E as <- <-. apply holds_other; congruence.
  - destruct (tvacant vs y); [|discriminate]. destruct (tmade nl cs ns counts smooth); [|discriminate]. injection E as <- <-. apply holds_other; congruence.
  - destruct (tvacant vs y); [|discriminate]. destruct (tholds vs z) as [v|]; [|discriminate].
    destruct (v_centers v) as [|p [|]]; [injection E as <- <-; apply holds_other; congruence| |discriminate].
    destruct (v_neighs v) as [|q [|]]; try discriminate. injection E as <- <-. apply holds_other; congruence.
  - destruct (tholds vs y); [|discriminate]. destruct (tholds vs z) as [v|]; [|discriminate]. destruct (y =? z).
    + destruct (nl_lists (v_list v)); [|discriminate]. injection E as <- <-. apply holds_other; congruence.
    + injection E as <- <-. apply holds_other; congruence.
  - destruct (tholds vs y); [|discriminate]. injection E as <- <-. apply holds_other; congruence.
Qed.
Lemma tothers_stay l1 l2 n s1 s2 x : Forall proper (l1 ++ l2) -> trun l1 (tstart n) = HOk s1 -> trun l2 s1 = HOk s2 ->
  Forall (fun c => ttarget c <> x) l2 -> tseen s2 x = tseen s1 x.
Proof.
  intros P E1 E2 T. apply Forall_app in P. destruct P as [P1 P2]. destruct (ran l1 n s1 P1 E1) as (vs & lost & own & _ & I). clear E1.
  revert vs lost s1 own I E2. induction l2 as [|c l2 IH]; intros vs lost s1 own I E2; cbn [trun] in E2; [congruence|].
  inversion P2 as [|? ? Pc P2']; subst. inversion T as [|? ? Tc T']; subst. pose proof (step_ok c vs lost s1 own I Pc) as St.
  destruct (tmeaning c (vs, lost)) as [[vs' lost']|] eqn:M.
  - destruct St as (s' & own' & E & I'). rewrite E in E2. cbn [hbind] in E2. rewrite (IH P2' T' vs' lost' s' own' I' E2).
    rewrite (seen_inv vs' lost' s' own' x I'), (seen_inv vs lost s1 own x I). f_equal. eapply meaning_other; eauto.
  - destruct St as [e E]. rewrite E in E2. discriminate.
Qed.
Lemma holds_same (vs : tvalues) x w : x < length vs -> tholds (replace vs x w) x = w.
Proof. intros H. unfold tholds. rewrite nth_same by auto. now destruct w. Qed.
Lemma tassign_same l x y n s : Forall proper l -> x <> y -> trun l (tstart n) = HOk s -> (exists r, tseen s x = HOk r) -> (exists r, tseen s y = HOk r) ->
  exists s', trun (l ++ [TAssign x y]) (tstart n) = HOk s' /\ tseen s' x = tseen s y /\ tseen s' y = tseen s y.
Proof.
  intros P Hne E [rx Hx] [ry Hy]. destruct (ran l n s P E) as (vs & lost & own & _ & I).
  rewrite (seen_inv vs lost s own x I) in Hx. rewrite (seen_inv vs lost s own y I) in Hy |- *.
  pose proof (step_ok (TAssign x y) vs lost s own I Logic.I) as St. cbn [tmeaning] in St.
  destruct (tholds vs x) as [vx|] eqn:Ex; [|discriminate]. destruct (tholds vs y) as [vy|] eqn:Ey; [|discriminate].
  destruct (Nat.eqb_spec x y) as [?|_]; [contradiction|]. destruct St as (s' & own' & Es & I'). exists s'.
  rewrite trun_app, E. cbn [hbind]. cbn [trun]. rewrite Es. split; [reflexivity|].
  rewrite (seen_inv _ _ s' own' x I'), (seen_inv _ _ s' own' y I').
  assert (Lx : x < length vs). { unfold tholds in Ex. destruct (nth_error vs x) eqn:N; [|discriminate]. apply nth_error_Some. congruence. }
  rewrite holds_same by auto. rewrite holds_other by auto. now rewrite Ey.
Qed.
Lemma free_place vs x n s own lost : tinv vs lost s own -> length vs = n -> x < n -> tseen s x = HErr NoObject -> tvacant vs x = true.
Proof.
  intros I L Hx E. rewrite (seen_inv vs lost s own x I) in E. unfold tholds in E. unfold tvacant.
  destruct (nth_error vs x) as [[v|]|] eqn:N; [discriminate|reflexivity|]. apply nth_error_None in N. lia.
Qed.
Lemma meaning_length c vs lost vs' lost' : tmeaning c (vs, lost) = Some (vs', lost') -> length vs' = length vs.
Proof.
  destruct c as [y|y nl cs ns counts smooth|y z|y z|y]; cbn [tmeaning]; intros E.
  - destruct (tvacant vs y); [|discriminate]. injection E as <- <-. apply replace_length.
  - destruct (tvacant vs y); [|discriminate]. destruct (tmade nl cs ns counts smooth); [|discriminate]. injection E as <- <-. apply replace_length.
  - destruct (tvacant vs y); [|discriminate]. destruct (tholds vs z) as [v|]; [|discriminate].
    destruct (v_centers v) as [|p [|]]; [injection E as <- <-; apply replace_length| |discriminate].
    destruct (v_neighs v) as [|q [|]]; try discriminate. injection E as <- <-. apply replace_length.
  - destruct (tholds vs y); [|discriminate]. destruct (tholds vs z) as [v|]; [|discriminate]. destruct (y =? z).
    + destruct (nl_lists (v_list v)); [|discriminate]. injection E as <- <-. apply replace_length.
    + injection E as <- <-. apply replace_length.
  - destruct (tholds vs y); [|discriminate]. injection E as <- <-. apply replace_length.
Qed.
Lemma meaning_all_length l vs lost vs' lost' : tmeaning_all l (vs, lost) = Some (vs', lost') -> length vs' = length vs.
Proof.
  revert vs lost. induction l as [|c l IH]; intros vs lost; cbn [tmeaning_all]; [congruence|].
  destruct (tmeaning c (vs, lost)) as [[vs1 lost1]|] eqn:M; [|discriminate]. intros E. rewrite (IH _ _ E). eapply meaning_length; eauto.
Qed.
Lemma tcopy_fails l x y n s m : Forall proper l -> trun l (tstart n) = HOk s -> x < n -> tseen s x = HErr NoObject -> tseen s y = HOk (Some m) ->
  2 <= length (s_centers m) \/ 2 <= length (s_neighs m) -> trun (l ++ [TCopy x y]) (tstart n) = HErr OutOfBounds.
Proof.
  intros P E Hx Sx Sy L. destruct (ran l n s P E) as (vs & lost & own & M & I). apply meaning_all_length in M. unfold tnone in M. rewrite repeat_length in M.
  pose proof (free_place vs x n s own lost I M Hx Sx) as V. rewrite (seen_inv vs lost s own y I) in Sy.
  rewrite trun_app, E. cbn [hbind trun tstep]. destruct s as [st h]. cbn [fst].
  pose proof (holds_inv vs lost st h own y I) as Hy. destruct (tholds vs y) as [v|]; [|discriminate]. destruct Hy as (_ & _ & o & Eo & _ & R).
  rewrite Eo. cbn [hbind]. pose proof (vacant_inv vs lost st h own x I) as W. rewrite V in W. destruct W as (_ & W & _).
  unfold tconstruct. cbn [fst snd]. rewrite W, (copy_more o v h (own y) R); [reflexivity| |].
  - intros Ec. cbn [texpected] in Sy. unfold summary_of in Sy. rewrite Ec in Sy. discriminate.
  - cbn [texpected] in Sy. unfold summary_of in Sy. destruct (v_centers v) as [|p t] eqn:Ec; [discriminate|]. injection Sy as <-.
    cbn [s_centers s_neighs] in L. cbn [map length] in L; rewrite !map_length in L; exact L.
Qed.
Lemma tcopy_works l x y n s m a b : Forall proper l -> trun l (tstart n) = HOk s -> x < n -> tseen s x = HErr NoObject -> tseen s y = HOk (Some m) ->
  s_centers m = [a] -> s_neighs m = [b] ->
  exists s', trun (l ++ [TCopy x y]) (tstart n) = HOk s' /\ tseen s' x = HOk (Some m) /\ tseen s' y = HOk (Some m).
Proof.
  intros P E Hx Sx Sy Ea Eb. destruct (ran l n s P E) as (vs & lost & own & M & I). apply meaning_all_length in M. unfold tnone in M. rewrite repeat_length in M.
  pose proof (free_place vs x n s own lost I M Hx Sx) as V. rewrite (seen_inv vs lost s own y I) in Sy.
  pose proof (step_ok (TCopy x y) vs lost s own I Logic.I) as St. cbn [tmeaning] in St. rewrite V in St.
  destruct (tholds vs y) as [v|] eqn:Ey; [|discriminate]. pose proof Sy as Sy'. cbn [texpected] in Sy'. unfold summary_of in Sy'.
  destruct (v_centers v) as [|p t] eqn:Ec; [discriminate|]. injection Sy' as <-. cbn [s_centers s_neighs map] in *.
  destruct t; [|discriminate]. destruct (v_neighs v) as [|q [|]]; try discriminate. destruct St as (s' & own' & Es & I'). exists s'.
  rewrite trun_app, E. cbn [hbind]. cbn [trun]. rewrite Es. split; [reflexivity|]. rewrite (seen_inv _ _ s' own' x I'), (seen_inv _ _ s' own' y I').
  rewrite holds_same by lia. split; [exact Sy|]. destruct (Nat.eq_dec y x) as [->|Hne].
  - unfold tvacant in V. unfold tholds in Ey. destruct (nth_error vs x) as [[]|]; discriminate.
  - rewrite holds_other by auto. now rewrite Ey.
Qed.
Lemma no_copies_no_loss l vs lost vs' lost' : forallb (fun c => negb (copies c)) l = true -> tmeaning_all l (vs, lost) = Some (vs', lost') -> lost' = lost.
Proof.
  revert vs lost. induction l as [|c l IH]; intros vs lost; cbn [tmeaning_all forallb]; [congruence|]. intros H. apply andb_true_iff in H. destruct H as [H1 H2].
  destruct (tmeaning c (vs, lost)) as [[vs1 lost1]|] eqn:M; [|discriminate]. intros E. rewrite (IH _ _ H2 E).
  destruct c as [y|y nl cs ns counts smooth|y z|y z|y]; cbn [tmeaning copies negb] in *; try discriminate.
  - destruct (tvacant vs y); [|discriminate]. congruence.
  - destruct (tvacant vs y); [|discriminate]. destruct (tmade nl cs ns counts smooth); [|discriminate]. congruence.
  - destruct (tholds vs y); [|discriminate]. destruct (tholds vs z) as [v|]; [|discriminate]. destruct (y =? z); [|congruence].
    destruct (nl_lists (v_list v)); [|discriminate]. congruence.
  - destruct (tholds vs y); [|discriminate]. congruence.
Qed.
Lemma needed_zero (vs : tvalues) : (forall x, texpected (tholds vs x) = HErr NoObject \/ texpected (tholds vs x) = HOk None) -> tneeded_all vs = 0.
Proof.
  induction vs as [|v vs IH]; intros H; [reflexivity|]. unfold tneeded_all. cbn [map list_sum fold_right]. change (fold_right Nat.add 0 (map tneeded vs)) with (tneeded_all vs).
  rewrite IH.
  - specialize (H 0). unfold tholds in H. cbn [nth_error] in H. destruct v as [v|]; [|reflexivity]. cbn [texpected tneeded] in *. unfold summary_of in H.
    destruct (v_centers v); [reflexivity|]. destruct H as [H|H]; discriminate.
  - intros x. exact (H (S x)).
Qed.
Lemma tnothing_lost l n s : Forall proper l -> forallb (fun c => negb (copies c)) l = true -> trun l (tstart n) = HOk s ->
  (forall x, tseen s x = HErr NoObject \/ tseen s x = HOk None) -> blocks_in_use (snd s) = 0.
Proof.
  intros P H E Sn. destruct (ran l n s P E) as (vs & lost & own & M & I). apply no_copies_no_loss in M; [|exact H]. subst lost.
  rewrite (ti_use _ _ _ _ I), needed_zero; [reflexivity|]. intros x. rewrite <- (seen_inv _ _ _ _ x I). apply Sn.
Qed.

(** Central atoms exist only if some atom has a list of neighbours. *)
Definition backed (v : option tvalue) : Prop := match v with Some v => nl_lists (v_list v) = [] -> Forall (fun p => snd p = 0%Z) (v_centers v) | None => True end.
Lemma replace_Forall {A} (Q : A -> Prop) l x a : Forall Q l -> Q a -> Forall Q (replace l x a).
Proof. intros F. revert x. induction F as [|b l Hb Hl IH]; intros [|x] Ha; cbn [replace]; constructor; auto. Qed.
Lemma holds_backed vs x v : Forall backed vs -> tholds vs x = Some v -> backed (Some v).
Proof.
  intros F. unfold tholds. destruct (nth_error vs x) as [[w|]|] eqn:N; try discriminate. intros E. injection E as ->.
  rewrite Forall_forall in F. apply F. eapply nth_error_In; eauto.
Qed.
Lemma made_backed nl cs ns counts smooth v : tmade nl cs ns counts smooth = Some v -> backed (Some v).
Proof.
  unfold tmade. destruct (match counts with None => _ | Some _ => _ end) as [kn|]; [|discriminate]. intros E. injection E as <-. cbn [backed v_list v_centers].
  intros En. apply Forall_forall. intros p Hp. apply in_map_iff in Hp. destruct Hp as (z & <- & _). cbn [snd]. unfold atoms_of. now rewrite En.
Qed.
Lemma meaning_backed c vs lost vs' lost' : tmeaning c (vs, lost) = Some (vs', lost') -> Forall backed vs -> Forall backed vs'.
Proof.
  destruct c as [y|y nl cs ns counts smooth|y z|y z|y]; cbn [tmeaning]; intros E F.
  - destruct (tvacant vs y); [|discriminate]. injection E as <- <-. apply replace_Forall; auto. cbn. constructor.
  - destruct (tvacant vs y); [|discriminate]. destruct (tmade nl cs ns counts smooth) eqn:M; [|discriminate]. injection E as <- <-. apply replace_Forall; auto.
    eapply made_backed; eauto.
  - destruct (tvacant vs y); [|discriminate]. destruct (tholds vs z) as [v|] eqn:Z; [|discriminate]. pose proof (holds_backed vs z v F Z) as B.
    destruct (v_centers v) as [|p [|]]; [injection E as <- <-; apply replace_Forall; auto| |discriminate].
    destruct (v_neighs v) as [|q [|]]; try discriminate. injection E as <- <-. apply replace_Forall; auto.
  - destruct (tholds vs y); [|discriminate]. destruct (tholds vs z) as [v|] eqn:Z; [|discriminate]. pose proof (holds_backed vs z v F Z) as B. destruct (y =? z).
    + destruct (nl_lists (v_list v)); [|discriminate]. injection E as <- <-. apply replace_Forall; auto. cbn. constructor.
    + injection E as <- <-. apply replace_Forall; auto.
  - destruct (tholds vs y); [|discriminate]. injection E as <- <-. apply replace_Forall; auto. exact I.
Qed.
Lemma meaning_all_backed l vs lost vs' lost' : tmeaning_all l (vs, lost) = Some (vs', lost') -> Forall backed vs -> Forall backed vs'.
Proof.
  revert vs lost. induction l as [|c l IH]; intros vs lost; cbn [tmeaning_all]; [congruence|].
  destruct (tmeaning c (vs, lost)) as [[vs1 lost1]|] eqn:M; [|discriminate]. intros E F. apply (IH _ _ E). eapply meaning_backed; eauto.
Qed.
Lemma sum_zero l : Forall (fun p : Z * Z => snd p = 0%Z) l -> fold_right Z.add 0%Z (map snd l) = 0%Z.
Proof. induction 1 as [|p l E _ IH]; cbn [map fold_right]; [reflexivity|]. rewrite E, IH. reflexivity. Qed.
Lemma tself_fails l x n s m : Forall proper l -> trun l (tstart n) = HOk s -> tseen s x = HOk (Some m) -> fst (s_shape m) <> 0%Z ->
  trun (l ++ [TAssign x x]) (tstart n) = HErr UseAfterFree.
Proof.
  intros P E Sx Hm. destruct (ran l n s P E) as (vs & lost & own & M & I).
  assert (F : Forall backed vs). { eapply meaning_all_backed; [exact M|]. apply Forall_forall. intros v Hv. apply repeat_spec in Hv. now subst. }
  rewrite (seen_inv vs lost s own x I) in Sx. rewrite trun_app, E. cbn [hbind trun tstep]. destruct s as [st h]. unfold tassign. cbn [fst snd].
  pose proof (holds_inv vs lost st h own x I) as Hx. destruct (tholds vs x) as [v|] eqn:Ex; [|discriminate]. pose proof (holds_backed vs x v F Ex) as B.
  destruct Hx as (Lx & Nx & o & Eo & No & R). rewrite Eo. cbn [hbind].
  destruct (clear_ok h o v (own x) R) as (o1 & h1 & E1 & _ & _ & _ & Q1 & _). rewrite E1. cbn [hbind].
  assert (Lst : x < length st) by (apply nth_error_Some; congruence). unfold tobject. rewrite nth_same by auto. cbn [hbind]. rewrite Nat.eqb_refl, Q1. cbn [andb].
  destruct (nl_lists (v_list v)) as [|l0 ll] eqn:En; [|reflexivity]. exfalso. apply Hm. cbn [backed] in B. specialize (B En). cbn [texpected] in Sx. unfold summary_of in Sx.
  destruct (v_centers v) as [|p t] eqn:Ec; [discriminate|]. injection Sx as <-. cbn [s_shape fst]. apply sum_zero in B. exact B.
Qed.
