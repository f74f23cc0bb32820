(** Proofs about the path in reciprocal space. *)
From Coq Require Import String Reals Lra Lia Permutation.
From Verif Require Import Base Vec ElementModel NbModel NbSearchProofs NbMlffProofs TextProofs KpathModel KpathSpec.
Local Open Scope string_scope.
Local Open Scope list_scope.
Local Open Scope R_scope.

(** ** Dictionaries *)

Lemma dget_in {V} (d : list (string * V)) k v : dget String.eqb d k = Ok v -> In (k, v) d.
Proof.
  induction d as [|[k' v'] r IH]; cbn [dget]; [discriminate|].
  destruct (String.eqb_spec k k') as [->|N]; [intros [= ->]; left; reflexivity|]. intros H; right; auto.
Qed.
Lemma dget_nodup {V} (d : list (string * V)) k v : NoDup (map fst d) -> In (k, v) d -> dget String.eqb d k = Ok v.
Proof.
  induction d as [|[k' v'] r IH]; cbn [dget map fst]; intros N H; [destruct H|].
  inversion N as [|? ? Hn Nr]; subst.
  destruct (String.eqb_spec k k') as [->|Ne].
  - destruct H as [[= ->]|H]; [reflexivity|]. destruct Hn. apply in_map_iff. exists (k', v). auto.
  - destruct H as [[= -> ->]|H]; [destruct Ne; reflexivity|]. auto.
Qed.
Lemma dget_missing {V} (d : list (string * V)) k : ~ In k (map fst d) -> dget String.eqb d k = Err KeyError.
Proof.
  induction d as [|[k' v'] r IH]; cbn [dget map fst In]; intros H; [reflexivity|].
  destruct (String.eqb_spec k k') as [->|N]; [destruct H; left; reflexivity|]. apply IH. tauto.
Qed.
Lemma dget_err {V} (d : list (string * V)) k e : dget String.eqb d k = Err e -> ~ In k (map fst d).
Proof.
  induction d as [|[k' v'] r IH]; cbn [dget map fst In]; intros H; [tauto|].
  destruct (String.eqb_spec k k') as [->|N]; [discriminate|]. intros [E|E]; [congruence|]. apply (IH H E).
Qed.
Lemma dset_new {V} (d : list (string * V)) k v : ~ In k (map fst d) -> dset String.eqb d k v = d ++ [(k, v)].
Proof.
  induction d as [|[k' v'] r IH]; cbn [dset map fst In app]; intros H; [reflexivity|].
  destruct (String.eqb_spec k k') as [->|N]; [destruct H; left; reflexivity|]. rewrite IH; tauto.
Qed.
Lemma has_iff {V} (d : list (string * V)) k : has d k = true <-> In k (map fst d).
Proof.
  unfold has. rewrite existsb_exists, in_map_iff. split.
  - intros (p & Hp & E). apply String.eqb_eq in E. exists p. auto.
  - intros (p & E & Hp). exists p. split; [exact Hp|]. apply String.eqb_eq. auto.
Qed.
Lemma NoDup_snoc {A} (l : list A) x : NoDup l -> ~ In x l -> NoDup (l ++ [x]).
Proof.
  intros N H. apply (Permutation_NoDup (Permutation_cons_append l x)). constructor; assumption.
Qed.

(** ** The points *)

Lemma in_dpop {V} (d : list (string * V)) k p : In p (dpop d k) <-> In p d /\ fst p <> k.
Proof.
  unfold dpop. rewrite filter_In, Bool.negb_true_iff, String.eqb_neq. intuition congruence.
Qed.
Lemma NoDup_map_filter {A B} (f : A -> B) g l : NoDup (map f l) -> NoDup (map f (filter g l)).
Proof.
  induction l as [|x r IH]; cbn [map filter]; intros N; [constructor|]. inversion N as [|? ? Hn Nr]; subst.
  destruct (g x); cbn [map]; [|auto]. constructor; [|auto].
  intros H. apply Hn. apply in_map_iff in H. destruct H as (y & E & Hy). apply filter_In in Hy.
  apply in_map_iff. exists y. tauto.
Qed.

Lemma rename_points_spec d : symmetry_table d ->
  NoDup (map fst (rename_points d)) /\
  (forall m v, In (m, v) (rename_points d) <-> exists n, In (n, v) d /\ published n m).
Proof.
  intros [N G]. unfold rename_points. destruct (dget String.eqb d gamma) as [v0|e] eqn:E.
  - pose proof (dget_in _ _ _ E) as H0.
    assert (Hn : ~ In "G" (map fst (dpop d gamma))).
    { intros H. apply G. apply in_map_iff in H. destruct H as (p & Ep & Hp). apply in_dpop in Hp.
      apply in_map_iff. exists p. tauto. }
    rewrite dset_new by exact Hn. split.
    { rewrite map_app. cbn [map fst]. apply NoDup_snoc; [|exact Hn]. apply NoDup_map_filter, N. }
    intros m v. rewrite in_app_iff, in_dpop. cbn [In fst]. split.
    + intros [[H1 H2]|[[= <- <-]|[]]].
      * exists m. split; [exact H1|]. right. split; [exact H2|reflexivity].
      * exists gamma. split; [exact H0|]. left. split; reflexivity.
    + intros (n & H1 & [[-> ->]|[H2 ->]]).
      * right; left. f_equal. pose proof (dget_nodup _ _ _ N H1) as E2. unfold gamma in E. congruence.
      * left. split; [exact H1|exact H2].
  - pose proof (dget_err _ _ _ E) as H0. split; [exact N|]. intros m v. split.
    + intros H. exists m. split; [exact H|]. right. split; [|reflexivity]. intros ->. apply H0.
      apply in_map_iff. exists (gamma, v). split; [reflexivity|exact H].
    + intros (n & H1 & [[-> ->]|[H2 ->]]); [|exact H1]. destruct H0. apply in_map_iff.
      exists (gamma, v). split; [reflexivity|exact H1].
Qed.

Lemma fold_filter (d acc : points) : NoDup (map fst (acc ++ d)) ->
  fold_left (fun acc p => if Req_EM_T (vz (snd p)) 0 then dset String.eqb acc (fst p) (snd p) else acc) d acc
  = acc ++ filter (fun p => if Req_EM_T (vz (snd p)) 0 then true else false) d.
Proof.
  revert acc. induction d as [|[k v] r IH]; intros acc N; cbn [fold_left filter fst snd]; [rewrite app_nil_r; reflexivity|].
  destruct (Req_EM_T (vz v) 0) as [E|E].
  - rewrite dset_new.
    + rewrite IH; [rewrite <- app_assoc; reflexivity|]. rewrite <- app_assoc. exact N.
    + rewrite map_app in N. cbn [map fst] in N. apply NoDup_remove_2 in N. intros H. apply N, in_app_iff. left. exact H.
  - apply IH. rewrite map_app in *. cbn [map fst] in N. apply NoDup_remove_1 in N. exact N.
Qed.

Lemma kpoints_spec k d ks : symmetry_table d -> get_kpoints k d = Ok ks ->
  NoDup (map fst ks) /\ (forall m v, In (m, v) ks <-> offered k d m v).
Proof.
  intros Hd H. destruct (rename_points_spec d Hd) as [N R]. unfold get_kpoints in H.
  destruct (k =? 2)%Z eqn:E2.
  - apply Z.eqb_eq in E2. injection H as <-. rewrite fold_filter by (cbn [app]; exact N). cbn [app].
    split; [apply NoDup_map_filter, N|]. intros m v. rewrite filter_In, R. cbn [snd]. unfold offered. split.
    + intros [(n & H1 & H2) H3]. exists n. destruct (Req_EM_T (vz v) 0); [|discriminate]. auto.
    + intros (n & H1 & H2 & [H3|[_ H3]]); [lia|]. split; [eauto|]. destruct (Req_EM_T (vz v) 0); [reflexivity|contradiction].
  - destruct (k =? 3)%Z eqn:E3; [|discriminate]. apply Z.eqb_eq in E3. injection H as <-. split; [exact N|].
    intros m v. rewrite R. unfold offered. split.
    + intros (n & H1 & H2). exists n. auto.
    + intros (n & H1 & H2 & _). eauto.
Qed.

Lemma kpoints_ok k d : k = 2%Z \/ k = 3%Z -> exists ks, get_kpoints k d = Ok ks.
Proof. intros [->| ->]; unfold get_kpoints; cbn [Z.eqb Pos.eqb]; eexists; reflexivity. Qed.

(** ** The paths *)

Lemma published_fun n m m' : published n m -> published n m' -> m = m'.
Proof. intros [[? ?]|[? ?]] [[? ?]|[? ?]]; congruence. Qed.

Lemma rename_path_spec p : Forall2 published p (rename_path p).
Proof.
  unfold rename_path. destruct (existsb (String.eqb gamma) p) eqn:E.
  - clear E. induction p as [|n r IH]; cbn [map]; constructor; [|exact IH].
    destruct (String.eqb_spec n gamma) as [->|N]; [left; split; reflexivity|right; split; [exact N|reflexivity]].
  - induction p as [|n r IH]; constructor; cbn [existsb] in E; apply Bool.orb_false_iff in E; destruct E as [E1 E2].
    + apply String.eqb_neq in E1. right. split; [intros ->; apply E1; reflexivity|reflexivity].
    + apply IH, E2.
Qed.

Lemma filter_selects {A} (f : A -> bool) (P : A -> Prop) l :
  (forall x, In x l -> (f x = true <-> P x)) -> selects P l (filter f l).
Proof.
  induction l as [|x r IH]; intros H; cbn [filter]; [constructor|].
  destruct (f x) eqn:E; constructor.
  - apply H; [left; reflexivity|exact E].
  - apply IH; intros; apply H; right; assumption.
  - intros Hp. apply H in Hp; [congruence|left; reflexivity].
  - apply IH; intros; apply H; right; assumption.
Qed.

Lemma sampler_paths k d paths s : symmetry_table d -> kpath_sampler k d paths = Ok s ->
  exists named, Forall2 (Forall2 published) paths named /\
  ((k = 3%Z /\ kpaths s = named) \/
   (k = 2%Z /\ exists flat, Forall2 (selects (fun m => exists v, offered k d m v)) named flat /\
      selects (fun p => (2 <= length p)%nat) flat (kpaths s))).
Proof.
  intros Hd H. unfold kpath_sampler in H. destruct (get_kpoints k d) as [ks|] eqn:E; [|discriminate]. cbn [bind] in H.
  destruct (kpoints_spec _ _ _ Hd E) as [N K].
  destruct (get_kpaths k ks paths) as [ps|] eqn:Ep; [|discriminate]. cbn [bind] in H. injection H as <-. cbn [kpaths].
  exists (map rename_path paths). split.
  { clear. induction paths as [|p r IH]; cbn [map]; constructor; [apply rename_path_spec|exact IH]. }
  unfold get_kpaths in Ep. destruct (k =? 2)%Z eqn:E2.
  - apply Z.eqb_eq in E2. right. split; [exact E2|]. exists (map (filter (has ks)) (map rename_path paths)). split.
    + generalize (map rename_path paths). intros l. induction l as [|p r IH]; cbn [map]; constructor; [|exact IH].
      apply filter_selects. intros m _. rewrite has_iff, in_map_iff. split.
      * intros ([m' v] & <- & Hm). exists v. apply K, Hm.
      * intros [v Hv]. exists (m, v). split; [reflexivity|apply K, Hv].
    + assert (Ep' : filter (fun p => 1 <? length p)%nat (map (filter (has ks)) (map rename_path paths)) = ps)
        by (destruct (map rename_path paths); [discriminate|congruence]).
      rewrite <- Ep'. apply filter_selects. intros p _. rewrite Nat.ltb_lt. lia.
  - destruct (k =? 3)%Z eqn:E3; [|discriminate]. apply Z.eqb_eq in E3. injection Ep as <-. left. auto.
Qed.

(** What a two-dimensional path joins: between two neighbours of a kept path there were only
    points off the plane. *)
Lemma selects_app {A} (P : A -> Prop) l a b : selects P l (a ++ b) ->
  exists l1 l2, l = l1 ++ l2 /\ selects P l1 a /\ selects P l2 b.
Proof.
  intros H. remember (a ++ b) as c eqn:Ec. revert a b Ec. induction H as [|x l l' Hx H IH|x l l' Hx H IH]; intros a b Ec.
  - symmetry in Ec. apply app_eq_nil in Ec. destruct Ec as [-> ->]. exists [], []. repeat split; constructor.
  - destruct a as [|y a]; cbn [app] in Ec.
    + subst b. exists [], (x :: l). split; [reflexivity|]. split; [constructor|]. constructor; assumption.
    + injection Ec as <- ->. destruct (IH a b eq_refl) as (l1 & l2 & -> & H1 & H2).
      exists (x :: l1), l2. split; [reflexivity|]. split; [constructor; assumption|exact H2].
  - destruct (IH a b Ec) as (l1 & l2 & -> & H1 & H2). exists (x :: l1), l2. split; [reflexivity|].
    split; [apply selects_drop; assumption|exact H2].
Qed.
Lemma selects_cons_inv {A} (P : A -> Prop) l x r : selects P l (x :: r) ->
  exists l1 l2, l = l1 ++ x :: l2 /\ Forall (fun y => ~ P y) l1 /\ P x /\ selects P l2 r.
Proof.
  intros H. remember (x :: r) as c eqn:Ec. induction H as [|y l l' Hy H IH|y l l' Hy H IH]; [discriminate| |].
  - injection Ec as -> ->. exists [], l. split; [reflexivity|]. auto.
  - destruct (IH Ec) as (l1 & l2 & -> & H1 & H2 & H3). exists (y :: l1), l2. split; [reflexivity|]. auto.
Qed.
Lemma selects_follows {A} (P : A -> Prop) l l' x y : selects P l l' -> follows x y l' ->
  exists l1 gap l2, l = l1 ++ x :: gap ++ y :: l2 /\ Forall (fun z => ~ P z) gap.
Proof.
  intros H (a & b & ->). apply selects_app in H. destruct H as (l1 & l2 & -> & _ & H).
  apply selects_cons_inv in H. destruct H as (u1 & u2 & -> & _ & _ & H).
  apply selects_cons_inv in H. destruct H as (w1 & w2 & -> & Hw & _ & _).
  exists (l1 ++ u1), w1, w2. split; [rewrite <- app_assoc; reflexivity|exact Hw].
Qed.

(** ** The file gen.kpt *)

Section Gen.
Variables b1 b2 b3 : vec.
Variable density : R.
Variable ks : points.

Definition block_ok (path : list string) (i : nat) (b : block) : Prop :=
  nth_error path i = Some (from_name b) /\ nth_error path (S i) = Some (to_name b) /\
  In (from_name b, from_at b) ks /\ In (to_name b, to_at b) ks /\
  count b = ceilZ (path_length b1 b2 b3 (from_at b) (to_at b) / density).

Lemma walk_spec at_ name path out : In (name, at_) ks -> walk b1 b2 b3 density ks at_ name path = Ok out ->
  length out = length path /\ forall i b, nth_error out i = Some b -> block_ok (name :: path) i b.
Proof.
  revert at_ name out. induction path as [|n r IH]; intros at_ name out Hin H; cbn [walk] in H.
  - injection H as <-. split; [reflexivity|]. intros [|i] b Hb; discriminate.
  - destruct (dget String.eqb ks n) as [v|] eqn:Ev; [|discriminate]. cbn [bind] in H.
    destruct (walk b1 b2 b3 density ks v n r) as [rest|] eqn:Ew; [|discriminate]. cbn [bind] in H. injection H as <-.
    destruct (IH v n rest (dget_in _ _ _ Ev) Ew) as [L B]. split; [cbn [length]; lia|].
    intros [|i] b Hb; cbn [nth_error] in Hb.
    + injection Hb as <-. unfold block_ok. cbn. repeat split; auto. apply dget_in, Ev.
    + destruct (B i b Hb) as (B1 & B2 & B3). split; [exact B1|]. split; [exact B2|exact B3].
Qed.

Lemma gen_path_spec path out : gen_path b1 b2 b3 density ks path = Ok out ->
  length out = (length path - 1)%nat /\ forall i b, nth_error out i = Some b -> block_ok path i b.
Proof.
  destruct path as [|n r]; cbn [gen_path]; intros H.
  - injection H as <-. split; [reflexivity|]. intros [|i] b Hb; discriminate.
  - destruct (dget String.eqb ks n) as [v|] eqn:Ev; [|discriminate]. cbn [bind] in H.
    destruct (walk_spec _ _ _ _ (dget_in _ _ _ Ev) H) as [L B]. split; [cbn [length]; lia|exact B].
Qed.

Lemma walk_total at_ name path : (forall n, In n path -> In n (map fst ks)) ->
  exists out, walk b1 b2 b3 density ks at_ name path = Ok out.
Proof.
  revert at_ name. induction path as [|n r IH]; intros at_ name H; cbn [walk]; [eexists; reflexivity|].
  destruct (dget String.eqb ks n) as [v|e] eqn:Ev.
  - cbn [bind]. destruct (IH v n) as [out ->]; [intros; apply H; right; assumption|]. cbn [bind]. eexists; reflexivity.
  - apply dget_err in Ev. destruct Ev. apply H. left; reflexivity.
Qed.
Lemma gen_path_total path : (forall n, In n path -> In n (map fst ks)) ->
  exists out, gen_path b1 b2 b3 density ks path = Ok out.
Proof.
  destruct path as [|n r]; intros H; cbn [gen_path]; [eexists; reflexivity|].
  destruct (dget String.eqb ks n) as [v|e] eqn:Ev.
  - cbn [bind]. apply walk_total. intros; apply H; right; assumption.
  - apply dget_err in Ev. destruct Ev. apply H. left; reflexivity.
Qed.
Lemma walk_missing at_ name path n : In n path -> ~ In n (map fst ks) ->
  walk b1 b2 b3 density ks at_ name path = Err KeyError.
Proof.
  revert at_ name. induction path as [|m r IH]; intros at_ name H Hn; [destruct H|]. cbn [walk].
  destruct (dget String.eqb ks m) as [v|e] eqn:Ev.
  - cbn [bind]. destruct H as [->|H].
    + apply dget_in in Ev. destruct Hn. apply in_map_iff. exists (n, v). auto.
    + rewrite IH by assumption. reflexivity.
  - pose proof (dget_err _ _ _ Ev) as He. rewrite dget_missing in Ev by exact He. injection Ev as <-. reflexivity.
Qed.
Lemma gen_path_missing path n : In n path -> ~ In n (map fst ks) -> gen_path b1 b2 b3 density ks path = Err KeyError.
Proof.
  destruct path as [|m r]; intros H Hn; [destruct H|]. cbn [gen_path].
  destruct (dget String.eqb ks m) as [v|e] eqn:Ev.
  - cbn [bind]. destruct H as [->|H].
    + apply dget_in in Ev. destruct Hn. apply in_map_iff. exists (n, v). auto.
    + apply walk_missing with n; assumption.
  - pose proof (dget_err _ _ _ Ev) as He. rewrite dget_missing in Ev by exact He. injection Ev as <-. reflexivity.
Qed.
End Gen.

Lemma Forall2_map_imp {A B} (P Q : A -> B -> Prop) l m : (forall a b, P a b -> Q a b) -> Forall2 P l m -> Forall2 Q l m.
Proof. intros H F. induction F; constructor; auto. Qed.

Lemma sampler_points k d paths s : symmetry_table d -> kpath_sampler k d paths = Ok s ->
  NoDup (map fst (kpoints s)) /\ (forall m v, In (m, v) (kpoints s) <-> offered k d m v).
Proof.
  intros Hd H. unfold kpath_sampler in H. destruct (get_kpoints k d) as [ks|] eqn:E; [|discriminate]. cbn [bind] in H.
  destruct (get_kpaths k ks paths) as [ps|] eqn:Ep; [|discriminate]. cbn [bind] in H. injection H as <-. cbn [kpoints].
  apply kpoints_spec; assumption.
Qed.

Lemma highk_spec k d paths s : symmetry_table d -> kpath_sampler k d paths = Ok s ->
  NoDup (map snd (highk s)) /\ (forall m v, In (v, m) (highk s) <-> offered k d m v).
Proof.
  intros Hd H. destruct (sampler_points _ _ _ _ Hd H) as [N K]. unfold highk. split.
  - rewrite map_map. exact N.
  - intros m v. rewrite <- K, in_map_iff. split.
    + intros ([m' v'] & [= -> ->] & Hp). exact Hp.
    + intros Hp. exists (m, v). auto.
Qed.

Lemma gen_kpt_spec k d paths s b1 b2 b3 density out : symmetry_table d ->
  kpath_sampler k d paths = Ok s -> gen_kpt b1 b2 b3 density s = Ok out ->
  exists parts, out = List.concat parts /\
  Forall2 (fun path part => length part = (length path - 1)%nat /\
    forall i b, nth_error part i = Some b ->
      nth_error path i = Some (from_name b) /\ nth_error path (S i) = Some (to_name b) /\
      offered k d (from_name b) (from_at b) /\ offered k d (to_name b) (to_at b)) (kpaths s) parts.
Proof.
  intros Hd Hs H. destruct (sampler_points _ _ _ _ Hd Hs) as [N K]. unfold gen_kpt in H.
  destruct (mapM _ (kpaths s)) as [parts|] eqn:E; [|discriminate]. cbn [bind] in H. injection H as <-.
  exists parts. split; [reflexivity|]. apply mapM_forall2 in E. revert E. apply Forall2_map_imp.
  intros path part Hp. apply gen_path_spec in Hp. destruct Hp as [L B]. split; [exact L|].
  intros i b Hb. destruct (B i b Hb) as (B1 & B2 & B3 & B4 & _).
  split; [exact B1|]. split; [exact B2|]. split; apply K; assumption.
Qed.

Lemma gen_kpt_counts s b1 b2 b3 density out b : gen_kpt b1 b2 b3 density s = Ok out -> In b out ->
  count b = ceilZ (path_length b1 b2 b3 (from_at b) (to_at b) / density).
Proof.
  intros H Hb. unfold gen_kpt in H. destruct (mapM _ (kpaths s)) as [parts|] eqn:E; [|discriminate].
  cbn [bind] in H. injection H as <-. apply mapM_forall2 in E. apply in_concat in Hb. destruct Hb as (part & Hp & Hb).
  assert (exists path, gen_path b1 b2 b3 density (kpoints s) path = Ok part) as [path G].
  { clear -E Hp. induction E as [|x y l l' Hxy E IH]; [destruct Hp|]. destruct Hp as [<-|Hp]; [eexists; exact Hxy|auto]. }
  apply gen_path_spec in G. destruct G as [_ B]. apply In_nth_error in Hb. destruct Hb as [i Hi].
  apply (B i b Hi).
Qed.

(** ** When it works *)

Lemma Forall2_in_r {A B} (P : A -> B -> Prop) l m y : Forall2 P l m -> In y m -> exists x, In x l /\ P x y.
Proof.
  induction 1 as [|a b l m Hab F IH]; intros H; [destruct H|]. destruct H as [<-|H]; [exists a; split; [left; reflexivity|exact Hab]|].
  destruct (IH H) as (x & Hx & Px). exists x. split; [right; exact Hx|exact Px].
Qed.
Lemma selects_in {A} (P : A -> Prop) l l' x : selects P l l' -> In x l' -> In x l /\ P x.
Proof.
  induction 1 as [|y l l' Hy H IH|y l l' Hy H IH]; intros Hx; [destruct Hx| |].
  - destruct Hx as [<-|Hx]; [split; [left; reflexivity|exact Hy]|]. destruct (IH Hx). split; [right|]; assumption.
  - destruct (IH Hx). split; [right|]; assumption.
Qed.

Lemma sampler_total k d paths : k = 3%Z \/ (k = 2%Z /\ paths <> []) -> exists s, kpath_sampler k d paths = Ok s.
Proof.
  intros [->|[-> Hp]]; unfold kpath_sampler, get_kpoints, get_kpaths; cbn [Z.eqb Pos.eqb bind]; [eexists; reflexivity|].
  destruct paths as [|p r]; [contradiction|]. cbn [map bind]. eexists; reflexivity.
Qed.
Lemma sampler_dimension k d paths : k <> 2%Z -> k <> 3%Z -> kpath_sampler k d paths = Err PlainException.
Proof.
  intros H2 H3. unfold kpath_sampler, get_kpoints. apply Z.eqb_neq in H2, H3. rewrite H2, H3. reflexivity.
Qed.
Lemma sampler_no_path d : kpath_sampler 2 d [] = Err NameError.
Proof. reflexivity. Qed.

Lemma all_names k d paths s : symmetry_table d -> kpath_sampler k d paths = Ok s ->
  (k = 2%Z \/ forall p n, In p paths -> In n p -> In n (map fst d)) ->
  forall p n, In p (kpaths s) -> In n p -> In n (map fst (kpoints s)).
Proof.
  intros Hd Hs Hn p n Hp Hin. destruct (sampler_points _ _ _ _ Hd Hs) as [N K].
  assert (exists v, offered k d n v) as [v Hv].
  { destruct (sampler_paths _ _ _ _ Hd Hs) as (named & Hnamed & [[Ek E]|(Ek & flat & F1 & F2)]).
    - destruct Hn as [Hn|Hn]; [lia|]. rewrite E in Hp. destruct (Forall2_in_r _ _ _ _ Hnamed Hp) as (p0 & Hp0 & Fp).
      destruct (Forall2_in_r _ _ _ _ Fp Hin) as (n0 & Hn0 & Pn). specialize (Hn p0 n0 Hp0 Hn0).
      apply in_map_iff in Hn. destruct Hn as ([n1 v] & E1 & H1). cbn in E1. subst n1. exists v, n0. auto.
    - apply (selects_in _ _ _ _ F2) in Hp. destruct Hp as [Hp _].
      destruct (Forall2_in_r _ _ _ _ F1 Hp) as (p0 & _ & Hsel). apply (selects_in _ _ _ _ Hsel Hin). }
  apply in_map_iff. exists (n, v). split; [reflexivity|apply K, Hv].
Qed.

Lemma gen_kpt_total k d paths s b1 b2 b3 density : symmetry_table d -> kpath_sampler k d paths = Ok s ->
  (k = 2%Z \/ forall p n, In p paths -> In n p -> In n (map fst d)) ->
  exists out, gen_kpt b1 b2 b3 density s = Ok out.
Proof.
  intros Hd Hs Hn. unfold gen_kpt.
  destruct (mapM_total (gen_path b1 b2 b3 density (kpoints s)) (kpaths s)) as [out ->].
  - intros p Hp. apply gen_path_total. intros n. exact (all_names _ _ _ _ Hd Hs Hn p n Hp).
  - cbn [bind]. eexists; reflexivity.
Qed.

Lemma mapM_key_err {A B} (f : A -> result B) l x : In x l -> f x = Err KeyError ->
  (forall y e, In y l -> f y = Err e -> e = KeyError) -> mapM f l = Err KeyError.
Proof.
  intros Hx Ex He. induction l as [|a r IH]; [destruct Hx|]. cbn [mapM].
  destruct (f a) as [b|e] eqn:Ea.
  - cbn [bind]. destruct Hx as [->|Hx]; [congruence|]. rewrite IH; [reflexivity|exact Hx|]. intros; eapply He; [right|]; eassumption.
  - cbn [bind]. f_equal. apply (He a); [left; reflexivity|exact Ea].
Qed.
Lemma dget_err_is {V} (d : list (string * V)) k e : dget String.eqb d k = Err e -> e = KeyError.
Proof. intros H. pose proof (dget_missing d k (dget_err _ _ _ H)). congruence. Qed.
Lemma walk_err b1 b2 b3 density ks at_ name path e : walk b1 b2 b3 density ks at_ name path = Err e -> e = KeyError.
Proof.
  revert at_ name. induction path as [|n r IH]; intros at_ name H; cbn [walk] in H; [discriminate|].
  destruct (dget String.eqb ks n) as [v|e'] eqn:Ev; cbn [bind] in H.
  - destruct (walk b1 b2 b3 density ks v n r) as [o|e'] eqn:Ew; cbn [bind] in H; [discriminate|].
    injection H as ->. apply (IH v n Ew).
  - injection H as ->. apply (dget_err_is _ _ _ Ev).
Qed.
Lemma gen_kpt_missing d paths s b1 b2 b3 density p n : symmetry_table d -> kpath_sampler 3 d paths = Ok s ->
  In p paths -> In n p -> ~ In n (map fst d) -> n <> "G" -> gen_kpt b1 b2 b3 density s = Err KeyError.
Proof.
  intros Hd Hs Hp Hn Hno Hg. destruct (sampler_points _ _ _ _ Hd Hs) as [N K].
  destruct (sampler_paths _ _ _ _ Hd Hs) as (named & Hnamed & [[_ E]|(Ek & _)]); [|lia].
  assert (exists q m, In q named /\ In m q /\ published n m) as (q & m & Hq & Hm & Pm).
  { clear -Hnamed Hp Hn. induction Hnamed as [|a b l l' Hab F IH]; [destruct Hp|]. destruct Hp as [->|Hp].
    - assert (exists m, In m b /\ published n m) as (m & Hm & Pm).
      { clear -Hab Hn. induction Hab as [|x y l l' Hxy F IH]; [destruct Hn|]. destruct Hn as [->|Hn];
        [exists y; split; [left; reflexivity|exact Hxy]|]. destruct (IH Hn) as (m & Hm & Pm). exists m. split; [right|]; assumption. }
      exists b, m. split; [left; reflexivity|]. auto.
    - destruct (IH Hp) as (q & m & Hq & ?). exists q, m. split; [right; exact Hq|assumption]. }
  assert (Hmiss : ~ In m (map fst (kpoints s))).
  { intros H. apply in_map_iff in H. destruct H as ([m' v] & Em & H). cbn in Em. subst m'. apply K in H.
    destruct H as (n' & H1 & H2 & _).
    assert (n' = n).
    { destruct Pm as [[E1 E2]|[E1 E2]], H2 as [[E3 E4]|[E3 E4]]; subst; try reflexivity; try congruence.
      destruct Hd as [_ Gd]. destruct Gd. apply in_map_iff. exists ("G", v). auto. }
    subst n'. apply Hno. apply in_map_iff. exists (n, v). auto. }
  unfold gen_kpt. rewrite E. erewrite mapM_key_err with (x := q); [reflexivity|exact Hq| |].
  - apply gen_path_missing with m; assumption.
  - intros y e _ Hy. destruct y as [|a r]; cbn [gen_path] in Hy; [discriminate|].
    destruct (dget String.eqb (kpoints s) a) as [v|e'] eqn:Ev; cbn [bind] in Hy.
    + apply walk_err in Hy. exact Hy.
    + injection Hy as ->. apply (dget_err_is _ _ _ Ev).
Qed.

(** ** Lengths *)

Definition form_code (b1 b2 b3 d : vec) : R :=
  vx d * vx d * norm2 (col1 b1 b2 b3) + vy d * vy d * norm2 (col2 b1 b2 b3) + vz d * vz d * norm2 (col3 b1 b2 b3).
Definition form_true (b1 b2 b3 d : vec) : R :=
  vx d * vx d * norm2 b1 + vy d * vy d * norm2 b2 + vz d * vz d * norm2 b3
  + 2 * (vx d * vy d * dot b1 b2 + vx d * vz d * dot b1 b3 + vy d * vz d * dot b2 b3).
Lemma path_length_form b1 b2 b3 u v : path_length b1 b2 b3 u v = sqrt (form_code b1 b2 b3 (vsub v u)).
Proof. unfold path_length, form_code, col1, col2, col3. f_equal. vec_ring. Qed.
Lemma true_length_form b1 b2 b3 u v : true_length b1 b2 b3 u v = sqrt (form_true b1 b2 b3 (vsub v u)).
Proof. unfold true_length, form_true. f_equal. vec_ring. Qed.
Lemma norm2_pos v : 0 <= norm2 v.
Proof. destruct v as [[x y] z]. vec_unfold. pose proof (Rle_0_sqr x); pose proof (Rle_0_sqr y); pose proof (Rle_0_sqr z). unfold Rsqr in *. lra. Qed.
Lemma form_code_pos b1 b2 b3 d : 0 <= form_code b1 b2 b3 d.
Proof.
  unfold form_code.
  pose proof (Rmult_le_pos _ _ (Rle_0_sqr (vx d)) (norm2_pos (col1 b1 b2 b3))).
  pose proof (Rmult_le_pos _ _ (Rle_0_sqr (vy d)) (norm2_pos (col2 b1 b2 b3))).
  pose proof (Rmult_le_pos _ _ (Rle_0_sqr (vz d)) (norm2_pos (col3 b1 b2 b3))). unfold Rsqr in *. lra.
Qed.
Lemma form_true_norm b1 b2 b3 d : form_true b1 b2 b3 d = norm2 (comb b1 b2 b3 (vx d) (vy d) (vz d)).
Proof. unfold form_true. vec_ring. Qed.
Lemma form_true_pos b1 b2 b3 d : 0 <= form_true b1 b2 b3 d.
Proof. rewrite form_true_norm. apply norm2_pos. Qed.

Lemma length_iff b1 b2 b3 :
  (forall u v, path_length b1 b2 b3 u v = true_length b1 b2 b3 u v) <-> aligned b1 b2 b3.
Proof.
  split.
  - intros H.
    assert (F : forall d, form_code b1 b2 b3 d = form_true b1 b2 b3 d).
    { intros d. specialize (H (0, 0, 0) d). rewrite path_length_form, true_length_form in H.
      replace (vsub d (0, 0, 0)) with d in H by vec_ring.
      apply sqrt_inj in H; [exact H|apply form_code_pos|apply form_true_pos]. }
    pose proof (F (1, 0, 0)) as F1. pose proof (F (0, 1, 0)) as F2. pose proof (F (0, 0, 1)) as F3.
    pose proof (F (1, 1, 0)) as F4. pose proof (F (1, 0, 1)) as F5. pose proof (F (0, 1, 1)) as F6.
    unfold form_code, form_true in *. cbn [vx vy vz fst snd] in *. unfold aligned. repeat split; lra.
  - intros (H1 & H2 & H3 & H4 & H5 & H6) u v. rewrite path_length_form, true_length_form. f_equal.
    unfold form_code, form_true. rewrite H1, H2, H3, H4, H5, H6. ring.
Qed.

Lemma diagonal_aligned x y z : aligned (x, 0, 0) (0, y, 0) (0, 0, z).
Proof. unfold aligned, col1, col2, col3. vec_unfold. repeat split; ring. Qed.

Lemma count_spec len density : 0 < density -> 0 <= len ->
  (0 <= ceilZ (len / density))%Z /\ len <= IZR (ceilZ (len / density)) * density /\
  (forall n : Z, len <= IZR n * density -> (ceilZ (len / density) <= n)%Z).
Proof.
  intros Hd Hl. assert (E : len = len / density * density) by (field; lra).
  assert (Hq : 0 <= len / density) by (apply Rmult_le_pos; [exact Hl|]; apply Rlt_le, Rinv_0_lt_compat, Hd).
  destruct (ceilZ_spec (len / density)) as [C1 C2]. split; [apply ceilZ_nonneg, Hq|]. split.
  - rewrite E at 1. apply Rmult_le_compat_r; [lra|exact C2].
  - intros n Hn. rewrite E in Hn. apply Rmult_le_reg_r in Hn; [|exact Hd].
    assert (IZR (ceilZ (len / density)) < IZR n + 1) by lra.
    rewrite <- plus_IZR in H. apply lt_IZR in H. lia.
Qed.

Lemma spacing_ok b1 b2 b3 density s out b : aligned b1 b2 b3 -> 0 < density ->
  gen_kpt b1 b2 b3 density s = Ok out -> In b out ->
  (0 <= count b)%Z /\ true_length b1 b2 b3 (from_at b) (to_at b) <= IZR (count b) * density /\
  (forall n : Z, true_length b1 b2 b3 (from_at b) (to_at b) <= IZR n * density -> (count b <= n)%Z).
Proof.
  intros Ha Hd Hg Hb. rewrite (gen_kpt_counts _ _ _ _ _ _ _ Hg Hb).
  rewrite (proj2 (length_iff b1 b2 b3) Ha). apply count_spec; [exact Hd|apply sqrt_pos].
Qed.
