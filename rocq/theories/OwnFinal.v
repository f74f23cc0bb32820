(** Proofs about the memory of neighbour lists: programs. *)
From Coq Require Import Permutation.
From Verif Require Import NestModel NestSpec NestProofs LifeModel LifeSpec LifeProofs LifeInv LifeMake LifeEnlarge LifeSteps OwnModel OwnSep OwnParts OwnVec OwnObj OwnBuild OwnMake OwnSpec.
Local Open Scope nat_scope.
Local Open Scope list_scope.

(** ** Factors and the central cell *)
Lemma scale_factor p e : scale p e = factor p e.
Proof. destruct p; cbn [scale factor]; lia. Qed.
Lemma central_middle p e : central (factor p e) = middle p e.
Proof.
  destruct p; cbn [factor middle]; [|reflexivity]. unfold central. replace (Z.of_nat (Datatypes.S (2 * e))) with (2 * Z.of_nat e + 1)%Z by lia.
  rewrite Z.rem_mod_nonneg by lia. replace ((2 * Z.of_nat e + 1) mod 2)%Z with 1%Z by (rewrite Z.add_comm, Z.mul_comm, Z_mod_plus_full; reflexivity). cbn [Z.eqb].
  replace (2 * Z.of_nat e + 1 - 1)%Z with (Z.of_nat e * 2)%Z by lia. now rewrite Z.quot_mul by lia.
Qed.
Lemma central_cell p0 e0 p1 e1 p2 e2 : let '(s0, s1, s2) := (factor p0 e0, factor p1 e1, factor p2 e2) in
  (central s0 + central s1 * Z.of_nat s0 + central s2 * Z.of_nat s0 * Z.of_nat s1)%Z = ((Z.of_nat (s0 * s1 * s2) - 1) / 2)%Z.
Proof.
  cbv beta iota. rewrite !central_middle.
  assert (forall p e, Z.of_nat (factor p e) = 2 * middle p e + 1)%Z as F by (intros [] e; cbn [factor middle]; lia).
  rewrite !Nat2Z.inj_mul, !F. set (a := middle p0 e0). set (b := middle p1 e1). set (c := middle p2 e2).
  replace ((2 * a + 1) * (2 * b + 1) * (2 * c + 1) - 1)%Z with ((a + b * (2 * a + 1) + c * (2 * a + 1) * (2 * b + 1)) * 2)%Z by ring. now rewrite Z.div_mul by lia.
Qed.

Definition held_of (o : option nl_content) : nl_held := match o with None => NEmpty | Some (k, rows) => NFull (view_of k) rows end.

Section Numbers.
Variable lengths_of : printed -> list Z * list Z.
Variable extending : printed -> Z -> nat * nat * nat.
Variable bins_of : printed -> list Z -> nat * nat * nat.
Variable min_of : printed -> list Z.
Variable bin_of : bin_info -> list Z -> Z.
Variable found : bin_view -> nat -> list Z.
Variable arranged : bin_view -> nat -> list Z -> list Z.
Notation kof v a := (bins_content lengths_of extending bins_of min_of bin_of (a_rcut a) (a_size a) (a_pbc a) v).
Notation rof v a := (rows_of found arranged (view_of (kof v a)) (length (coords v)) (a_sort a)).
Notation made_list := (nl_made lengths_of extending bins_of min_of bin_of found arranged).
Notation make' := (make lengths_of extending bins_of min_of bin_of found arranged).

Lemma nl_of_content v a : nl_of lengths_of extending bins_of min_of bin_of found arranged v a =
  if bins_fine bin_of (kof v a) then Some (held_of (Some (kof v a, rof v a))) else None.
Proof.
  unfold nl_of, bins_fine, bins_content, k_value, factors. cbn [k_cell k_bins].
  destruct (extending (print_of v) (a_rcut a)) as [[e0 e1] e2] eqn:Ee. destruct (a_pbc a) as [[p0 p1] p2] eqn:Ep.
  rewrite !scale_factor. pose proof (central_cell p0 e0 p1 e1 p2 e2) as Hc. cbv beta iota in Hc. unfold cell_content. rewrite Hc, !central_middle. cbn [fst snd num_bin].
  set (big := enlarged _ _ _ v). set (nb := bins_of (print_of big) (a_size a)). assert ((let '(b0, b1, b2) := nb in b0 * b1 * b2) = scaling3 nb) as -> by (destruct nb as [[? ?] ?]; reflexivity).
  unfold in_range. destruct (forallb _ _); reflexivity.
Qed.

(** ** One construction *)
Lemma make_full a v : made (a_n a) (a_basis a) (a_numbers a) (a_coords a) (a_cart a) = Some (Full v) -> a_rcut a <> 0%Z ->
  both (bins_fine bin_of (kof v a)) (make' a) [] (fun x => nl_ok x (Some (kof v a, rof v a))) (fun x => nl_asn x (Some (kof v a, rof v a))).
Proof.
  intros Hm Hr h own S0. unfold make. pose proof (now_start _ _ _ S0) as N0.
  assert (spec (construct (a_n a) (a_basis a) (a_numbers a) (a_coords a) (a_cart a)) [] (fun _ => True) (fun o => [stru o v])) as Hcon.
  { apply spec_nil. intros h'. destruct (make_ok _ _ _ _ _ h' _ Hm) as (o & h1 & E & new & C & Sl). exists o, h1, new. repeat split; auto; try apply C.
    apply one_sep; [exact Sl|]. eapply slot_NoDup; eauto. }
  destruct (now_spec _ [] _ _ [] _ _ _ _ ltac:(stab) ltac:(stab) Hcon N0 ltac:(perm)) as (st & h1 & -> & _ & N1). cbn [hbind app] in *.
  pose proof (now_both _ _ [stru st v] _ _ [] _ _ _ _ ltac:(stab) ltac:(stab)
    (by_value_both _ st v _ _ _ (fun x => nl_stable x _) (fun p => construct_nblist_both lengths_of extending bins_of min_of bin_of found arranged (a_rcut a) (a_size a) (a_pbc a) (a_sort a) p v Hr)) N1 ltac:(perm)) as H.
  destruct (bins_fine bin_of (kof v a)); [|destruct H as (e & ->); now exists e]. destruct H as (x & h2 & -> & Hx & N2). cbn [hbind] in *. rewrite app_nil_r in N2.
  destruct (now_act _ [stru st v] [] (nl_asn x (Some (kof v a, rof v a))) _ _ _ _ ltac:(stab) ltac:(apply nl_stable) (destroy_act st v) N2 (Permutation_refl _)) as (h3 & -> & N3). cbn [hbind app] in *.
  destruct N3 as (new & C & S3). exists x, h3, new. auto.
Qed.
Lemma make_zero a v : made (a_n a) (a_basis a) (a_numbers a) (a_coords a) (a_cart a) = Some (Full v) -> a_rcut a = 0%Z -> bins_fine bin_of (kof v a) = true ->
  spec (make' a) [] (fun x => nl_ok x None) (fun x => [lost (k_heads (kof v a)); lost (k_nexts (kof v a)); lost_rows]).
Proof.
  intros Hm Hr Hf h own S0. unfold make. pose proof (now_start _ _ _ S0) as N0.
  assert (spec (construct (a_n a) (a_basis a) (a_numbers a) (a_coords a) (a_cart a)) [] (fun _ => True) (fun o => [stru o v])) as Hcon.
  { apply spec_nil. intros h'. destruct (make_ok _ _ _ _ _ h' _ Hm) as (o & h1 & E & new & C & Sl). exists o, h1, new. repeat split; auto; try apply C.
    apply one_sep; [exact Sl|]. eapply slot_NoDup; eauto. }
  destruct (now_spec _ [] _ _ [] _ _ _ _ ltac:(stab) ltac:(stab) Hcon N0 ltac:(perm)) as (st & h1 & -> & _ & N1). cbn [hbind app] in *. rewrite Hr in *.
  set (k := bins_content lengths_of extending bins_of min_of bin_of 0 (a_size a) (a_pbc a) v) in *.
  assert (forall x : nblist, Forall stable [lost (k_heads k); lost (k_nexts k); lost_rows]) as SQ by (intros _; repeat apply Forall_cons; try apply lost_stable; try apply lost_rows_stable; constructor).
  pose proof (now_both _ _ [stru st v] _ _ [] _ _ _ _ ltac:(stab) ltac:(stab)
    (by_value_both _ st v _ _ _ SQ (fun p => construct_nblist_zero lengths_of extending bins_of min_of bin_of found arranged (a_size a) (a_pbc a) (a_sort a) p v)) N1 ltac:(perm)) as H.
  fold k in H. rewrite Hf in H. destruct H as (x & h2 & -> & Hx & N2). cbn [hbind app] in *.
  destruct (now_act _ [stru st v] [] [lost (k_heads k); lost (k_nexts k); lost_rows] _ _ _ _ ltac:(stab) (SQ x) (destroy_act st v) N2 (Permutation_refl _)) as (h3 & -> & N3). cbn [hbind app] in *.
  destruct N3 as (new & C & S3). exists x, h3, new. auto.
Qed.
Lemma make_empty a h : a_n a = 0 -> make' a h = HErr Aborted.
Proof. intros E. unfold make. rewrite E. reflexivity. Qed.
Lemma make_fails a h : a_rcut a <> 0%Z -> made_list a = None -> exists e, make' a h = HErr e.
Proof.
  intros Hr. unfold nl_made. destruct (made _ _ _ _ _) as [[|n|v]|] eqn:Em.
  - intros _. exists Aborted. apply make_empty. unfold made in Em. destruct (Nat.eqb_spec (a_n a) 0); [auto|]. destruct (_ && _)%bool; discriminate.
  - unfold made in Em. destruct (a_n a =? 0); [discriminate|]. destruct (_ && _)%bool; discriminate.
  - rewrite nl_of_content. pose proof (make_full a v Em Hr h [] (nil_sep h)) as H. destruct (bins_fine bin_of (kof v a)); [discriminate|]. intros _. exact H.
  - intros _. destruct (make_bad _ _ _ _ _ h Em) as (e & E). unfold make. rewrite E. now exists e.
Qed.
Lemma make_works a u : a_rcut a <> 0%Z -> made_list a = Some u -> exists o, u = held_of o /\ spec (make' a) [] (fun x => nl_ok x o) (fun x => nl_asn x o).
Proof.
  intros Hr. unfold nl_made. destruct (made _ _ _ _ _) as [[|n|v]|] eqn:Em; try discriminate.
  rewrite nl_of_content. pose proof (make_full a v Em Hr) as H. destruct (bins_fine bin_of (kof v a)); [|discriminate]. intros E. injection E as <-. eexists. split; [|exact H]. reflexivity.
Qed.

(** ** All variables *)
Definition var : Type := option (nblist * option nl_content).
Definition asn_of (e : var) : list asn := match e with None => [] | Some (x, o) => nl_asn x o end.
Definition ok_of (e : var) : Prop := match e with None => True | Some (x, o) => nl_ok x o end.
Definition all_asn (vars : list var) : list asn := flat_map asn_of vars.
Definition objects (vars : list var) : list (option nblist) := map (option_map fst) vars.
Definition contents (vars : list var) : nl_values := map (option_map (fun p => held_of (snd p))) vars.
Definition good_vars (vars : list var) (h : heap) : Prop := Forall ok_of vars /\ exists own, sep (all_asn vars) h own /\ forall x, alive h x -> In x own.

Lemma asn_of_stable e : Forall stable (asn_of e).
Proof. destruct e as [[x o]|]; cbn [asn_of]; [apply nl_stable|constructor]. Qed.
Lemma all_stable vars : Forall stable (all_asn vars).
Proof. unfold all_asn. induction vars as [|e l IH]; cbn [flat_map]; [constructor|]. apply Forall_app. split; [apply asn_of_stable|exact IH]. Qed.
Definition rest (vars : list var) (x : nat) : list asn := all_asn (firstn x vars ++ skipn (Datatypes.S x) vars).
Lemma rest_stable vars x : Forall stable (rest vars x).
Proof. apply all_stable. Qed.
Lemma rest_perm vars x e : nth_error vars x = Some e -> Permutation (asn_of e ++ rest vars x) (all_asn vars).
Proof.
  intros H. unfold rest, all_asn. revert x H. induction vars as [|d l IH]; intros [|x] H; try discriminate.
  - cbn in H. injection H as ->. cbn [firstn skipn app flat_map]. apply Permutation_refl.
  - cbn in H. cbn [firstn skipn app flat_map]. specialize (IH x H).
    eapply Permutation_trans; [|apply Permutation_app_head; exact IH]. rewrite !app_assoc. apply Permutation_app_tail, Permutation_app_comm.
Qed.
Lemma rest_replace vars x e : rest (replace vars x e) x = rest vars x.
Proof.
  unfold rest. f_equal. revert x. induction vars as [|d l IH]; intros [|x]; cbn [replace firstn skipn app]; auto. f_equal. apply IH.
Qed.
Lemma replace_perm vars x e e' : nth_error vars x = Some e -> Permutation (asn_of e' ++ rest vars x) (all_asn (replace vars x e')).
Proof.
  intros H. rewrite <- (rest_replace vars x e'). apply rest_perm. apply nth_replace_same. apply nth_error_Some. congruence.
Qed.
Lemma Forall_replace {A} (P : A -> Prop) l i x : Forall P l -> P x -> Forall P (replace l i x).
Proof. intros F Hx. revert i. induction F as [|y l Hy F IH]; intros [|i]; cbn [replace]; constructor; auto. Qed.
Lemma still_all h h' own new : (forall x, alive h x -> In x own) -> changes h h' own new -> forall x, alive h' x -> In x new.
Proof.
  intros Ha (L & A & F & K & N) x [c Hc]. destruct (in_dec Nat.eq_dec x new) as [|Hn]; [auto|]. exfalso.
  destruct (in_dec Nat.eq_dec x own) as [Ho|Ho]; [rewrite (F x Ho Hn) in Hc; discriminate|].
  destruct (Nat.ltb_spec x (length h)).
  - rewrite (A x H Ho) in Hc. apply Ho, Ha. eexists; eauto.
  - assert (x < length h') by (apply nth_error_Some; congruence). rewrite K in Hc by (auto; lia). discriminate.
Qed.
Lemma now_good h own vars' h' : Forall ok_of vars' -> (forall x, alive h x -> In x own) -> now h own (all_asn vars') h' -> good_vars vars' h'.
Proof. intros Ok Ha (new & C & S1). split; [exact Ok|]. exists new. split; [exact S1|]. eapply still_all; eauto. Qed.

Lemma replace_map {A B} (f : A -> B) l i x : replace (map f l) i (f x) = map f (replace l i x).
Proof. revert i. induction l as [|y l IH]; intros [|i]; cbn [map replace]; auto. now rewrite IH. Qed.
Lemma nth_objects vars x : nth_error (objects vars) x = option_map (option_map fst) (nth_error vars x).
Proof. apply nth_error_map. Qed.
Lemma nth_contents vars x : nth_error (contents vars) x = option_map (option_map (fun p => held_of (snd p))) (nth_error vars x).
Proof. apply nth_error_map. Qed.
Lemma objects_replace vars x e : objects (replace vars x e) = replace (objects vars) x (option_map fst e).
Proof. unfold objects. symmetry. apply (replace_map (option_map (@fst nblist (option nl_content)))). Qed.
Lemma contents_replace vars x e : contents (replace vars x e) = replace (contents vars) x (option_map (fun p => held_of (snd p)) e).
Proof. unfold contents. symmetry. apply (replace_map (option_map (fun p : nblist * option nl_content => held_of (snd p)))). Qed.
Lemma ok_nth vars x e : Forall ok_of vars -> nth_error vars x = Some e -> ok_of e.
Proof. rewrite Forall_forall. intros F H. apply F. eapply nth_error_In; eauto. Qed.

Notation mean := (nl_meaning lengths_of extending bins_of min_of bin_of found arranged).
Notation stp := (nl_step lengths_of extending bins_of min_of bin_of found arranged).
Lemma step_ok c vars h : with_cutoff c -> good_vars vars h ->
  match mean c (contents vars) with
  | Some vs => exists vars' h', stp c (objects vars, h) = HOk (objects vars', h') /\ vs = contents vars' /\ good_vars vars' h'
  | None => exists e, stp c (objects vars, h) = HErr e
  end.
Proof.
  intros Hw G. pose proof G as (Ok & own & S0 & Ha). pose proof (now_start _ _ _ S0) as N0.
  assert (forall x op o, nth_error vars x = Some None -> spec op [] (fun y => nl_ok y o) (fun y => nl_asn y o) ->
    exists vars' h', nl_place x op (objects vars, h) = HOk (objects vars', h') /\ replace (contents vars) x (Some (held_of o)) = contents vars' /\ good_vars vars' h') as Put.
  { intros x op o Hx Hop. unfold nl_place. cbn [fst snd]. rewrite nth_objects, Hx. cbn [option_map].
    destruct (now_spec op [] _ _ (all_asn vars) _ _ _ _ ltac:(stab) (all_stable vars) Hop N0 (Permutation_refl _)) as (y & h' & -> & Hy & N1). cbn [hbind].
    exists (replace vars x (Some (y, o))), h'. rewrite objects_replace, contents_replace. split; [reflexivity|]. split; [reflexivity|].
    apply (now_good h own); auto; [apply Forall_replace; auto|]. eapply now_perm; [exact N1|].
    eapply Permutation_trans; [apply Permutation_app_head, Permutation_sym, (rest_perm vars x None Hx)|]. cbn [asn_of app]. apply (replace_perm vars x None (Some (y, o)) Hx). }
  assert (forall x op, nl_vacant (contents vars) x = false -> exists e, nl_place x op (objects vars, h) = HErr e) as NoPut.
  { intros x op Hv. unfold nl_vacant in Hv. rewrite nth_contents in Hv. unfold nl_place. cbn [fst snd]. rewrite nth_objects. exists NoObject. destruct (nth_error vars x) as [[p|]|]; cbn in *; congruence. }
  assert (forall x, nl_vacant (contents vars) x = true -> nth_error vars x = Some None) as Vac.
  { intros x. unfold nl_vacant. rewrite nth_contents. destruct (nth_error vars x) as [[p|]|]; cbn; intros E; try discriminate; reflexivity. }
  assert (forall x, match nl_holds (contents vars) x with Some u => exists y o, nth_error vars x = Some (Some (y, o)) /\ u = held_of o /\ nl_object (objects vars) x = HOk y /\ nl_ok y o
    | None => nl_object (objects vars) x = HErr NoObject end) as Hold.
  { intros x. unfold nl_holds, nl_object. rewrite nth_contents, nth_objects. destruct (nth_error vars x) as [[[y o]|]|] eqn:E; cbn; auto. exists y, o. repeat split; auto. exact (ok_nth _ _ _ Ok E). }
  destruct c as [x|x a|x y|x y|x]; cbn [nl_meaning nl_step with_cutoff] in *.
  - destruct (nl_vacant (contents vars) x) eqn:V; [|now apply NoPut].
    destruct (Put x (fun h => HOk (no_nblist, h)) None (Vac x V)) as (vars' & h' & E & Ev & G').
    { apply spec_nil. intros h0. exists no_nblist, h0, []. split; [reflexivity|]. split; [cbn; auto|]. split; [apply changes_refl|apply nil_sep]. }
    exists vars', h'. auto.
  - destruct (nl_vacant (contents vars) x) eqn:V.
    + destruct (made_list a) as [u|] eqn:Em.
      * destruct (make_works a u Hw Em) as (o & -> & Hop). destruct (Put x (make' a) o (Vac x V) Hop) as (vars' & h' & E & Ev & G'). exists vars', h'. auto.
      * destruct (make_fails a h Hw Em) as (e & Ee). unfold nl_place. cbn [fst snd]. rewrite nth_objects, (Vac x V). cbn [option_map]. rewrite Ee. now exists e.
    + now apply NoPut.
  - cbn [fst]. pose proof (Hold y) as Hy. destruct (nl_vacant (contents vars) x) eqn:V.
    + destruct (nl_holds (contents vars) y) as [u|]; [|rewrite Hy; cbn [hbind]; now exists NoObject]. destruct Hy as (r & o & Ey & -> & -> & Hr). cbn [hbind].
      unfold nl_place. cbn [fst snd]. pose proof (Vac x V) as Hx. rewrite nth_objects, Hx. cbn [option_map].
      destruct (now_spec _ (nl_asn r o) _ _ (rest vars y) _ _ _ _ (nl_stable r o) (rest_stable vars y) (copy_nblist_spec r o Hr) N0 (rest_perm vars y _ Ey)) as (z & h' & -> & Hz & N1). cbn [hbind].
      exists (replace vars x (Some (z, o))), h'. rewrite objects_replace, contents_replace. split; [reflexivity|]. split; [reflexivity|].
      apply (now_good h own); auto; [apply Forall_replace; auto|]. eapply now_perm; [exact N1|]. rewrite <- app_assoc.
      eapply Permutation_trans; [apply Permutation_app_head; apply (rest_perm vars y _ Ey)|].
      eapply Permutation_trans; [apply Permutation_app_head, Permutation_sym, (rest_perm vars x None Hx)|]. cbn [asn_of app]. apply (replace_perm vars x None (Some (z, o)) Hx).
    + destruct (nl_object (objects vars) y) as [r|e]; cbn [hbind]; [now apply NoPut|now exists e].
  - cbn [fst snd]. pose proof (Hold x) as Hx. pose proof (Hold y) as Hy.
    destruct (nl_holds (contents vars) x) as [u|]; [|rewrite Hx; cbn [hbind]; now exists NoObject]. destruct Hx as (t & o & Ex & -> & Eox & Ht). rewrite Eox. cbn [hbind].
    destruct (nl_holds (contents vars) y) as [u|]; [|rewrite Hy; cbn [hbind]; now exists NoObject]. destruct Hy as (r & o' & Ey & -> & Eoy & Hr). rewrite Eoy. cbn [hbind].
    destruct (Nat.eqb_spec x y) as [<-|Hne].
    + rewrite Ex in Ey. injection Ey as <- <-. destruct o as [[k rows]|]; cbn [held_of].
      * assert (sep (nl_asn t (Some (k, rows)) ++ rest vars x) h own) as S1 by (eapply sep_perm; [apply Permutation_sym, (rest_perm vars x _ Ex)|exact S0]).
        destruct (sep_app _ _ _ _ S1) as (o1 & o2 & S2 & _ & _ & _). rewrite (assign_self_bad t k rows h o1 Ht S2). cbn [hbind]. now exists Uninitialised.
      * destruct (assign_self_empty t h Ht) as (t' & -> & Ht'). cbn [hbind]. exists (replace vars x (Some (t', None))), h. rewrite objects_replace, contents_replace. split; [reflexivity|]. split; [reflexivity|].
        apply (now_good h own); auto; [apply Forall_replace; auto|]. eapply now_perm; [exact N0|].
        eapply Permutation_trans; [apply Permutation_sym, (rest_perm vars x _ Ex)|]. apply (replace_perm vars x _ (Some (t', None)) Ex).
    + set (vars0 := replace vars x None). assert (nth_error vars0 y = Some (Some (r, o'))) as Ey0 by (unfold vars0; now rewrite nth_replace_other).
      assert (Permutation (nl_asn t o ++ nl_asn r o' ++ rest vars0 y) (all_asn vars)) as P1.
      { eapply Permutation_trans; [|apply (rest_perm vars x _ Ex)]. cbn [asn_of]. apply Permutation_app_head.
        eapply Permutation_trans; [apply (rest_perm vars0 y _ Ey0)|]. apply Permutation_sym. apply (replace_perm vars x _ None Ex). }
      destruct (now_spec _ (nl_asn t o ++ nl_asn r o') _ _ (rest vars0 y) _ _ _ _ ltac:(apply Forall_app; split; apply nl_stable) (rest_stable vars0 y)
        (assign_nblist_spec t o r o' Ht Hr) N0 ltac:(rewrite <- app_assoc; exact P1)) as (z & h' & -> & Hz & N1). cbn [hbind].
      assert (good_vars (replace vars x (Some (z, o'))) h') as G'.
      { apply (now_good h own); auto; [apply Forall_replace; auto|]. eapply now_perm; [exact N1|]. rewrite <- app_assoc.
        eapply Permutation_trans; [apply Permutation_app_head, (rest_perm vars0 y _ Ey0)|].
        eapply Permutation_trans; [apply Permutation_app_head, Permutation_sym, (replace_perm vars x _ None Ex)|]. cbn [asn_of app]. apply (replace_perm vars x _ (Some (z, o')) Ex). }
      destruct o' as [[k' rows']|]; cbn [held_of]; [exists (replace vars x (Some (z, Some (k', rows')))), h'|exists (replace vars x (Some (z, None))), h']; rewrite objects_replace, contents_replace; (split; [reflexivity|split; [reflexivity|exact G']]).
  - cbn [fst snd]. pose proof (Hold x) as Hx. destruct (nl_holds (contents vars) x) as [u|]; [|rewrite Hx; cbn [hbind]; now exists NoObject]. destruct Hx as (t & o & Ex & -> & Eox & Ht). rewrite Eox. cbn [hbind].
    destruct (now_act _ (nl_asn t o) [] (rest vars x) _ _ _ _ (nl_stable t o) (rest_stable vars x) (destroy_nblist_act t o Ht) N0 (rest_perm vars x _ Ex)) as (h' & -> & N1). cbn [hbind app] in *.
    exists (replace vars x None), h'. rewrite objects_replace, contents_replace. split; [reflexivity|]. split; [reflexivity|].
    apply (now_good h own); auto; [apply Forall_replace; cbn; auto|]. eapply now_perm; [exact N1|]. apply (replace_perm vars x _ None Ex).
Qed.

(** ** Reading and counting *)
Lemma seen_ok vars h x : good_vars vars h -> nl_seen (objects vars, h) x = nl_expected (nl_holds (contents vars) x).
Proof.
  intros (Ok & own & S0 & _). unfold nl_seen, nl_object, nl_holds. cbn [fst snd]. rewrite nth_objects, nth_contents. destruct (nth_error vars x) as [[[y o]|]|] eqn:E; cbn [option_map hbind nl_expected fst snd]; try reflexivity.
  pose proof (ok_nth _ _ _ Ok E) as Hy. cbn in Hy. assert (sep (nl_asn y o ++ rest vars x) h own) as S1 by (eapply sep_perm; [apply Permutation_sym, (rest_perm vars x _ E)|exact S0]).
  destruct (sep_app _ _ _ _ S1) as (o1 & o2 & S2 & _ & _ & _). rewrite (read_nblist_reads y o Hy h o1 S2). destruct o as [[k rows]|]; reflexivity.
Qed.
Lemma in_use_own h own : NoDup own -> (forall x, alive h x <-> In x own) -> in_use h = length own.
Proof.
  intros N Ha. unfold in_use. change (fun b : option (list (option Z)) => match b with Some _ => true | None => false end) with aliveb.
  rewrite (filter_positions h 0). apply Permutation_length. apply NoDup_Permutation; [apply NoDup_filter, seq_NoDup|exact N|].
  intros b. rewrite filter_In, in_seq, Nat.sub_0_r, <- Ha. split.
  - intros [_ H]. unfold alive. destruct (nth_error h b) as [[c|]|]; try discriminate. eauto.
  - intros H. split; [split; [lia|now apply alive_lt]|]. destruct H as [c ->]. reflexivity.
Qed.
Lemma sep_size l ns h own : Forall2 sized l ns -> sep l h own -> length own = list_sum ns.
Proof.
  intros F (owns & Fo & P & _). rewrite (Permutation_length P). clear P own. revert owns Fo. induction F as [|A n l ns HA F IH]; intros owns Fo; inversion Fo as [|? o ? os Ho Fo']; subst; [reflexivity|].
  cbn [concat]. rewrite app_length, (HA _ _ Ho), (IH _ Fo'). reflexivity.
Qed.
Lemma good_print v : good v -> length (p_sites (print_of v)) = length (coords v).
Proof. intros (_ & _ & _ & _ & E). cbn [print_of p_sites]. rewrite combine_length, E. apply Nat.min_id. Qed.
Lemma sizes x o : exists ns, Forall2 sized (nl_asn x o) ns /\
  list_sum ns = match o with None => 0 | Some (k, rows) => length (coords (k_value k)) + 7 + 3 + 1 + length rows end.
Proof.
  destruct o as [[k rows]|]; cbn [nl_asn bl_asn]; [|exists []; split; [constructor|reflexivity]].
  exists [1 + length rows; length (coords (k_value k)) + 7; 1; 1; 1]. split; [|cbn; lia].
  repeat apply Forall2_cons; try apply Forall2_nil; try apply jag_sized; try apply stru_sized; apply arr_sized.
Qed.
Lemma all_needed vars h own : sep (all_asn vars) h own -> length own = nl_needed_all (contents vars).
Proof.
  unfold nl_needed_all, contents. revert own. induction vars as [|e l IH]; intros own S0; cbn [all_asn flat_map] in S0.
  - now rewrite (sep_nil _ _ S0).
  - destruct (sep_app _ _ _ _ S0) as (o1 & o2 & S1 & S2 & P & _). rewrite (Permutation_length P), app_length, (IH _ S2). cbn [map list_sum fold_right]. unfold list_sum. cbn [fold_right]. f_equal.
    destruct e as [[x o]|]; cbn [asn_of option_map snd nl_needed] in *; [|now rewrite (sep_nil _ _ S1)].
    destruct (sizes x o) as (ns & F & E). rewrite (sep_size _ _ _ _ F S1), E. destruct o as [[k rows]|]; [|reflexivity]. cbn [held_of nl_needed]. cbn [nl_asn bl_asn] in S1.
    destruct (sep_fact S1 (sc_structure (bl_supercell (nl_bins x))) (k_value k)) as (Gv & _); [right; now left|]. unfold view_of. cbn [w_structure]. now rewrite (good_print _ Gv).
Qed.
Lemma memory_ok vars h : good_vars vars h -> in_use h = nl_needed_all (contents vars).
Proof.
  intros (_ & own & S0 & Ha). rewrite <- (all_needed vars h own S0). apply in_use_own; [destruct S0 as (? & _ & _ & N); exact N|]. intros x. split; [apply Ha|]. apply (sep_alive _ _ _ (all_stable vars) S0).
Qed.

(** ** Programs *)
Notation runs := (nl_run lengths_of extending bins_of min_of bin_of found arranged).
Notation means := (nl_meaning_all lengths_of extending bins_of min_of bin_of found arranged).
Lemma run_ok l : forall vars h, Forall with_cutoff l -> good_vars vars h ->
  match means l (contents vars) with
  | Some vs => exists vars' h', runs l (objects vars, h) = HOk (objects vars', h') /\ vs = contents vars' /\ good_vars vars' h'
  | None => exists e, runs l (objects vars, h) = HErr e
  end.
Proof.
  induction l as [|c l IH]; intros vars h Hw G; cbn [nl_run nl_meaning_all].
  - exists vars, h. auto.
  - inversion Hw as [|? ? Hc Hl]; subst. pose proof (step_ok c vars h Hc G) as St. destruct (mean c (contents vars)) as [vs|].
    + destruct St as (vars' & h' & -> & -> & G'). cbn [hbind]. apply (IH vars' h' Hl G').
    + destruct St as (e & ->). cbn [hbind]. now exists e.
Qed.
Lemma start_good n : good_vars (repeat None n) [] /\ objects (repeat None n) = repeat None n /\ contents (repeat None n) = repeat None n.
Proof.
  split; [|unfold objects, contents; split; induction n as [|n IH]; cbn [repeat map option_map]; congruence]. split; [apply Forall_forall; intros e He; apply repeat_spec in He; now subst|]. exists []. split.
  - assert (all_asn (repeat None n) = []) as -> by (induction n; auto). apply nil_sep.
  - intros x [c Hc]. now destruct x.
Qed.
Lemma run_start l n : Forall with_cutoff l ->
  match means l (repeat None n) with
  | Some vs => exists vars h, runs l (nl_start n) = HOk (objects vars, h) /\ vs = contents vars /\ good_vars vars h
  | None => exists e, runs l (nl_start n) = HErr e
  end.
Proof. intros Hw. destruct (start_good n) as (G & Eo & Ec). pose proof (run_ok l _ _ Hw G) as H. rewrite Ec, Eo in H. exact H. Qed.
Lemma nl_programs l n : Forall with_cutoff l ->
  match means l (repeat None n) with
  | Some vs => exists s, runs l (nl_start n) = HOk s /\ (forall x, nl_seen s x = nl_expected (nl_holds vs x)) /\ in_use (snd s) = nl_needed_all vs
  | None => exists e, runs l (nl_start n) = HErr e
  end.
Proof.
  intros Hw. pose proof (run_start l n Hw) as H. destruct (means l (repeat None n)) as [vs|]; [|exact H]. destruct H as (vars & h & E & -> & G).
  eexists. split; [exact E|]. split; [intros x; now apply seen_ok|]. now apply memory_ok.
Qed.
Lemma run_inv l n s : Forall with_cutoff l -> runs l (nl_start n) = HOk s -> exists vars h, s = (objects vars, h) /\ good_vars vars h.
Proof.
  intros Hw E. pose proof (run_start l n Hw) as H. destruct (means l (repeat None n)) as [vs|]; [|destruct H as (e & H); congruence]. destruct H as (vars & h & E' & _ & G). exists vars, h. split; [congruence|exact G].
Qed.
Lemma runs_app l1 l2 s : runs (l1 ++ l2) s = hbind (runs l1 s) (runs l2).
Proof. revert s. induction l1 as [|c l1 IH]; intros s; [reflexivity|]. cbn [app nl_run]. destruct (stp c s); cbn [hbind]; [apply IH|reflexivity]. Qed.
Lemma holds_replace_other vs x y (v : option nl_held) : x <> y -> nl_holds (replace vs x v) y = nl_holds vs y.
Proof. intros H. unfold nl_holds. now rewrite nth_replace_other. Qed.
Lemma holds_lt vs x u : nl_holds vs x = Some u -> x < length vs.
Proof. unfold nl_holds. intros H. apply nth_error_Some. intros E. now rewrite E in H. Qed.
Lemma vacant_lt vs x : nl_vacant vs x = true -> x < length vs.
Proof. unfold nl_vacant. intros H. apply nth_error_Some. intros E. now rewrite E in H. Qed.
Lemma holds_replace_same vs x (u : nl_held) : x < length vs -> nl_holds (replace vs x (Some u)) x = Some u.
Proof. intros H. unfold nl_holds. now rewrite nth_replace_same. Qed.
Lemma meaning_other c vs vs' x : mean c vs = Some vs' -> nl_target c <> x -> nl_holds vs' x = nl_holds vs x.
Proof.
  destruct c as [y|y a|y z|y z|y]; cbn [nl_meaning nl_target]; intros E Hne.
  - destruct (nl_vacant vs y); [|discriminate]. injection E as <-. now apply holds_replace_other.
  - destruct (nl_vacant vs y); [|discriminate]. destruct (made_list a); [|discriminate]. injection E as <-. now apply holds_replace_other.
  - destruct (nl_vacant vs y); [|discriminate]. destruct (nl_holds vs z); [|discriminate]. injection E as <-. now apply holds_replace_other.
  - destruct (nl_holds vs y); [|discriminate]. destruct (nl_holds vs z) as [[|w l]|]; [| |discriminate].
    + injection E as <-. now apply holds_replace_other.
    + destruct (y =? z); [discriminate|]. injection E as <-. now apply holds_replace_other.
  - destruct (nl_holds vs y); [|discriminate]. injection E as <-. now apply holds_replace_other.
Qed.
Lemma nl_others_stay l1 l2 n s1 s2 x : Forall with_cutoff (l1 ++ l2) -> runs l1 (nl_start n) = HOk s1 -> runs l2 s1 = HOk s2 ->
  Forall (fun c => nl_target c <> x) l2 -> nl_seen s2 x = nl_seen s1 x.
Proof.
  intros Hw E1 E2 F. apply Forall_app in Hw. destruct Hw as (Hw1 & Hw2). destruct (run_inv l1 n s1 Hw1 E1) as (vars & h & -> & G). clear E1. revert vars h G E2. induction l2 as [|c l2 IH]; intros vars h G E2; cbn [nl_run] in E2.
  - injection E2 as <-. reflexivity.
  - inversion Hw2 as [|? ? Hc Hl]; subst. inversion F as [|? ? Hx F']; subst. pose proof (step_ok c vars h Hc G) as St. destruct (mean c (contents vars)) as [vs|] eqn:Em.
    + destruct St as (vars' & h' & Es & -> & G'). rewrite Es in E2. cbn [hbind] in E2. rewrite (IH Hl F' vars' h' G' E2), !seen_ok by assumption. now rewrite (meaning_other _ _ _ _ Em Hx).
    + destruct St as (e & Es). rewrite Es in E2. discriminate.
Qed.
Lemma last_step l c n s : Forall with_cutoff l -> with_cutoff c -> runs (l ++ [c]) (nl_start n) = HOk s ->
  exists vars h vars' h', s = (objects vars', h') /\ good_vars vars h /\ good_vars vars' h' /\ mean c (contents vars) = Some (contents vars').
Proof.
  intros Hw Hc E. rewrite runs_app in E. destruct (runs l (nl_start n)) as [s1|] eqn:E1; [|discriminate]. cbn [hbind] in E. destruct (run_inv l n s1 Hw E1) as (vars & h & -> & G).
  cbn [nl_run] in E. pose proof (step_ok c vars h Hc G) as St. destruct (mean c (contents vars)) as [vs|] eqn:Em.
  - destruct St as (vars' & h' & Es & -> & G'). rewrite Es in E. cbn [hbind] in E. injection E as <-. exists vars, h, vars', h'. auto.
  - destruct St as (e & Es). rewrite Es in E. discriminate.
Qed.
Lemma expected_full u : exists r, nl_expected (Some u) = HOk r.
Proof. destruct u; cbn; eauto. Qed.
Lemma nl_copy_same l x y n s : Forall with_cutoff l -> runs (l ++ [NCopy x y]) (nl_start n) = HOk s -> nl_seen s x = nl_seen s y /\ exists r, nl_seen s y = HOk r.
Proof.
  intros Hw E. destruct (last_step l (NCopy x y) n s Hw I E) as (vars & h & vars' & h' & -> & G & G' & Em). rewrite !seen_ok by exact G'.
  cbn [nl_meaning] in Em. destruct (nl_vacant (contents vars) x) eqn:V; [|discriminate]. destruct (nl_holds (contents vars) y) as [u|] eqn:Hy; [|discriminate]. injection Em as <-.
  assert (x <> y) as Hne by (intros ->; unfold nl_vacant, nl_holds in *; destruct (nth_error (contents vars) y) as [[?|]|]; discriminate).
  rewrite holds_replace_same by (now apply vacant_lt). rewrite holds_replace_other by exact Hne. rewrite Hy. split; [reflexivity|apply expected_full].
Qed.
Lemma nl_assign_same l x y n s : Forall with_cutoff l -> x <> y -> runs (l ++ [NAssign x y]) (nl_start n) = HOk s -> nl_seen s x = nl_seen s y /\ exists r, nl_seen s y = HOk r.
Proof.
  intros Hw Hne E. destruct (last_step l (NAssign x y) n s Hw I E) as (vars & h & vars' & h' & -> & G & G' & Em). rewrite !seen_ok by exact G'.
  cbn [nl_meaning] in Em. destruct (nl_holds (contents vars) x) as [u0|] eqn:Hx; [|discriminate]. apply Nat.eqb_neq in Hne. rewrite Hne in Em. apply Nat.eqb_neq in Hne.
  destruct (nl_holds (contents vars) y) as [u|] eqn:Hy; [|discriminate].
  assert (contents vars' = replace (contents vars) x (Some u)) as -> by (destruct u; injection Em as <-; reflexivity).
  rewrite holds_replace_same by (eapply holds_lt; eauto). rewrite holds_replace_other by exact Hne. rewrite Hy. split; [reflexivity|apply expected_full].
Qed.
Lemma nl_assign_itself l x n s1 rc r : Forall with_cutoff l -> runs l (nl_start n) = HOk s1 -> nl_seen s1 x = HOk (rc, Some r) ->
  runs (l ++ [NAssign x x]) (nl_start n) = HErr Uninitialised.
Proof.
  intros Hw E Hs. rewrite runs_app, E. cbn [hbind nl_run]. destruct (run_inv l n s1 Hw E) as (vars & h & -> & G). rewrite seen_ok in Hs by exact G.
  destruct G as (Ok & own & S0 & _). cbn [nl_step fst snd]. unfold nl_holds in Hs. rewrite nth_contents in Hs. unfold nl_object. rewrite nth_objects.
  destruct (nth_error vars x) as [[[t [[k rows]|]]|]|] eqn:Ex; try discriminate. cbn [option_map fst hbind]. rewrite Nat.eqb_refl.
  assert (sep (nl_asn t (Some (k, rows)) ++ rest vars x) h own) as S1 by (eapply sep_perm; [apply Permutation_sym, (rest_perm vars x _ Ex)|exact S0]).
  destruct (sep_app _ _ _ _ S1) as (o1 & o2 & S2 & _ & _ & _). pose proof (ok_nth _ _ _ Ok Ex) as Ht. rewrite (assign_self_bad t k rows h o1 Ht S2). reflexivity.
Qed.
Lemma nl_nothing_lost l n s : Forall with_cutoff l -> runs l (nl_start n) = HOk s -> (forall x, nl_seen s x = HErr NoObject \/ nl_seen s x = HOk (0%Z, None)) -> in_use (snd s) = 0.
Proof.
  intros Hw E H. destruct (run_inv l n s Hw E) as (vars & h & -> & G). cbn [snd]. rewrite (memory_ok _ _ G).
  assert (forall x, nl_needed (nl_holds (contents vars) x) = 0) as Z0.
  { intros x. specialize (H x). rewrite seen_ok in H by exact G. destruct (nl_holds (contents vars) x) as [[|w rows]|]; cbn in *; auto. destruct H; discriminate. }
  unfold nl_needed_all. clear -Z0. induction (contents vars) as [|v l IH]; [reflexivity|]. cbn [map]. unfold list_sum. cbn [fold_right]. fold (list_sum (map nl_needed l)). rewrite IH.
  - specialize (Z0 0). cbn in Z0. destruct v; cbn in *; lia.
  - intros x. exact (Z0 (Datatypes.S x)).
Qed.
Lemma nl_no_atoms l x a n : Forall with_cutoff l -> a_n a = 0 -> forall s, runs l (nl_start n) = HOk s -> x < n -> nl_seen s x = HErr NoObject -> runs (l ++ [NMake x a]) (nl_start n) = HErr Aborted.
Proof.
  intros Hw Ha s E Hx Hs. rewrite runs_app, E. cbn [hbind nl_run nl_step]. unfold nl_place. destruct s as [st h]. unfold nl_seen, nl_object in Hs. cbn [fst snd] in *.
  assert (length st = n) as Ls.
  { clear -E. assert (forall l s s', runs l s = HOk s' -> length (fst s') = length (fst s)) as K.
    { clear. induction l as [|c l IH]; intros s s' E; cbn [nl_run] in E; [injection E as <-; reflexivity|]. destruct (stp c s) as [s1|] eqn:E1; [|discriminate]. cbn [hbind] in E.
      rewrite (IH _ _ E). clear -E1. destruct s as [st h]. destruct c as [y|y a|y z|y z|y]; cbn [nl_step fst snd] in E1; unfold nl_place in E1; cbn [fst snd] in E1.
      - destruct (nth_error st y) as [[?|]|]; try discriminate. cbn in E1. injection E1 as <-. apply replace_length.
      - destruct (nth_error st y) as [[?|]|]; try discriminate. destruct (make' a h) as [[o h']|]; [|discriminate]. cbn in E1. injection E1 as <-. apply replace_length.
      - destruct (nl_object st z) as [r|]; [|discriminate]. cbn [hbind] in E1. destruct (nth_error st y) as [[?|]|]; try discriminate. destruct (copy_nblist r h) as [[o h']|]; [|discriminate]. cbn in E1. injection E1 as <-. apply replace_length.
      - destruct (nl_object st y) as [t|]; [|discriminate]. cbn [hbind] in E1. destruct (nl_object st z) as [r|]; [|discriminate]. cbn [hbind] in E1. destruct (assign_nblist _ _ h) as [[o h']|]; [|discriminate]. cbn in E1. injection E1 as <-. apply replace_length.
      - destruct (nl_object st y) as [t|]; [|discriminate]. cbn [hbind] in E1. destruct (destroy_nblist t h) as [h'|]; [|discriminate]. cbn in E1. injection E1 as <-. apply replace_length. }
    pose proof (K _ _ _ E) as L. unfold nl_start in L. cbn [fst] in L. rewrite L. apply repeat_length. }
  destruct (nth_error st x) as [[o|]|] eqn:Ex; [| |apply nth_error_None in Ex; lia].
  - exfalso. cbn [hbind] in Hs. destruct (run_inv l n _ Hw E) as (vars & h' & Ev & G). injection Ev as -> ->. pose proof (seen_ok vars h' x G) as Hx'. unfold nl_seen, nl_object in Hx'. cbn [fst snd] in Hx'. rewrite Ex in Hx'. cbn [hbind] in Hx'.
    rewrite Hx' in Hs. unfold nl_holds in Hs. rewrite nth_contents in Hs. rewrite nth_objects in Ex. destruct (nth_error vars x) as [[[t [[k rows]|]]|]|]; cbn in *; discriminate.
  - rewrite make_empty by exact Ha. reflexivity.
Qed.
(** With cutoff 0: an empty list and three blocks nobody can release. *)
Lemma nl_zero_cutoff a v : made (a_n a) (a_basis a) (a_numbers a) (a_coords a) (a_cart a) = Some (Full v) -> a_rcut a = 0%Z -> made_list a <> None ->
  exists s s', runs [NMake 0 a] (nl_start 1) = HOk s /\ nl_seen s 0 = HOk (0%Z, None) /\ in_use (snd s) = 3 /\
    runs [NMake 0 a; NDestroy 0] (nl_start 1) = HOk s' /\ (forall x, nl_seen s' x = HErr NoObject) /\ in_use (snd s') = 3.
Proof.
  intros Hm Hr Hf. assert (bins_fine bin_of (kof v a) = true) as Hb.
  { unfold nl_made in Hf. rewrite Hm, nl_of_content in Hf. destruct (bins_fine bin_of (kof v a)); [reflexivity|congruence]. }
  destruct (make_zero a v Hm Hr Hb [] [] (nil_sep [])) as (x & h & new & E & Hx & C & S0).
  assert (in_use h = 3) as U.
  { rewrite (in_use_own h new (match S0 with ex_intro _ _ (conj _ (conj _ N)) => N end)).
    - rewrite (sep_size _ [1; 1; 1] _ _ (Forall2_cons _ _ (lost_sized _) (Forall2_cons _ _ (lost_sized _) (Forall2_cons _ _ lost_rows_sized (Forall2_nil _)))) S0). reflexivity.
    - intros y. split.
      + apply (still_all [] h [] _); [|exact C]. intros z [c Hc]. now destruct z.
      + apply (sep_alive _ _ _ (Forall_cons _ (lost_stable _) (Forall_cons _ (lost_stable _) (Forall_cons _ lost_rows_stable (Forall_nil _)))) S0). }
  cbn [nl_run nl_step]. unfold nl_place, nl_start. cbn [repeat nth_error fst snd]. rewrite E. cbn [hbind replace nl_object nth_error fst snd].
  assert (destroy_nblist x h = HOk h) as D.
  { destruct Hx as (En & _ & Er & Es & Eo). cbn [bl_ok] in *. unfold destroy_nblist, destroy_bin_list, destroy_supercell, destroy. rewrite En, Er, Es, Eo. reflexivity. }
  unfold nl_object. cbn [nth_error hbind fst snd]. rewrite D. cbn [hbind replace].
  eexists _, _. split; [reflexivity|]. split; [|split; [exact U|]].
  - unfold nl_seen, nl_object. cbn [nth_error fst snd hbind]. destruct Hx as (En & Erc & _). unfold read_nblist. rewrite En, Erc. reflexivity.
  - split; [reflexivity|]. split; [|exact U]. intros [|y]; [reflexivity|]. unfold nl_seen, nl_object. cbn [nth_error fst]. destruct y; reflexivity.
Qed.
End Numbers.
