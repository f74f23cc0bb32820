(** Statistics of a set of structures: order, and sums over samples. *)
From Coq Require Import Permutation Lia.
From Verif Require Import Arr Vec StructModel SiteIndexModel SeModel NeighModel StatsModel InferModel SetStatsModel InferProofs StatsSpec StatsProofs SetStatsSpec.
Local Open Scope nat_scope.

(** *** Order *)
Lemma mapM_perm {X Y} (f : X -> result Y) l l' r : Permutation l l' -> mapM f l = Ok r -> exists r', mapM f l' = Ok r' /\ Permutation r r'.
Proof.
  intros P. revert r. induction P as [|x l l' P IH|x y l|l1 l2 l3 P1 IH1 P2 IH2]; intros r H.
  - exists r. auto.
  - cbn [mapM] in *. destruct (f x) as [a|e]; [|discriminate]. cbn [bind] in *. destruct (mapM f l) as [q|e] eqn:E; [|discriminate]. cbn [bind] in H. injection H as <-.
    destruct (IH q eq_refl) as (q' & -> & Pq). exists (a :: q'). split; [reflexivity|]. apply perm_skip. exact Pq.
  - cbn [mapM] in *. destruct (f y) as [b|e]; [|discriminate]. cbn [bind] in *. destruct (f x) as [a|e]; [|discriminate]. cbn [bind] in *. destruct (mapM f l) as [q|e] eqn:E; [|discriminate]. cbn [bind] in *. injection H as <-.
    exists (a :: b :: q). split; [reflexivity|]. apply perm_swap.
  - destruct (IH1 r H) as (r2 & H2 & Q2). destruct (IH2 r2 H2) as (r3 & H3 & Q3). exists r3. split; [exact H3|]. exact (perm_trans Q2 Q3).
Qed.
Lemma hcat2_length {F} (a b : list (list F)) : length a = length b -> length (hcat2 a b) = length a.
Proof. revert b. induction a as [|x a IH]; intros [|y b] H; try discriminate; [reflexivity|]. cbn. f_equal. apply IH. injection H as H. exact H. Qed.
Lemma hcat2_perm {F} (a b : list (list F)) : length a = length b -> Permutation (concat (hcat2 a b)) (concat a ++ concat b).
Proof.
  revert b. induction a as [|x a IH]; intros [|y b] H; try discriminate; [reflexivity|]. cbn [hcat2 concat]. injection H as H. rewrite (IH b H), <- !app_assoc. apply Permutation_app_head.
  rewrite !app_assoc. apply Permutation_app_tail. apply Permutation_app_comm.
Qed.
Lemma fold_hcat2_perm {F} (ps : list (list (list F))) p : Forall (fun q => length q = length p) ps -> Permutation (concat (fold_left hcat2 ps p)) (concat (map (@concat F) (p :: ps))).
Proof.
  revert p. induction ps as [|q ps IH]; intros p H; [cbn; rewrite app_nil_r; reflexivity|]. inversion H as [|? ? Hq Hs]; subst. cbn [fold_left]. rewrite IH.
  - cbn [map concat]. rewrite hcat2_perm by (symmetry; exact Hq). rewrite app_assoc. reflexivity.
  - rewrite hcat2_length by (symmetry; exact Hq). exact Hs.
Qed.
Lemma hcat_some {F} (parts : list (list (list F))) b : hcat parts = Ok b -> parts <> [] /\ (forall p q, In p parts -> In q parts -> length p = length q) /\ Permutation (concat b) (concat (map (@concat F) parts)).
Proof.
  destruct parts as [|p ps]; cbn [hcat]; [discriminate|]. destruct (forallb _ ps) eqn:E; [|discriminate]. intros H. injection H as <-. split; [discriminate|].
  rewrite forallb_forall in E. assert (A : forall q, In q (p :: ps) -> length q = length p) by (intros q [<-|I]; [reflexivity|apply Nat.eqb_eq, E, I]). split.
  - intros q r Iq Ir. rewrite (A q Iq), (A r Ir). reflexivity.
  - apply fold_hcat2_perm. apply Forall_forall. intros q I. apply A. right. exact I.
Qed.
Lemma hcat_works {F} (parts : list (list (list F))) : parts <> [] -> (forall p q, In p parts -> In q parts -> length p = length q) -> exists b, hcat parts = Ok b.
Proof.
  destruct parts as [|p ps]; intros N H; [contradiction|]. cbn [hcat]. replace (forallb _ ps) with true; [eexists; reflexivity|]. symmetry. apply forallb_forall. intros q I. apply Nat.eqb_eq. apply H; [right; exact I|left; reflexivity].
Qed.
Lemma hcat_differs {F} (parts : list (list (list F))) p q : In p parts -> In q parts -> length p <> length q -> hcat parts = Err ValueError.
Proof.
  intros Ip Iq N. destruct (hcat parts) as [b|e] eqn:E.
  - destruct (hcat_some parts b E) as (_ & H & _). elim N. apply H; assumption.
  - destruct parts as [|r rs]; [destruct Ip|]. cbn [hcat] in E. destruct (forallb _ rs); [discriminate|]. congruence.
Qed.
Lemma hcat_perm {F} (parts parts' : list (list (list F))) b : Permutation parts parts' -> hcat parts = Ok b -> exists b', hcat parts' = Ok b' /\ Permutation (concat b) (concat b').
Proof.
  intros P H. destruct (hcat_some parts b H) as (N & L & C).
  destruct (hcat_works parts') as [b' Hb'].
  - intros ->. apply Permutation_sym, Permutation_nil in P. contradiction.
  - intros p q Ip Iq. apply L; apply (Permutation_in _ (Permutation_sym P)); assumption.
  - exists b'. split; [exact Hb'|]. destruct (hcat_some parts' b' Hb') as (_ & _ & C'). rewrite C, C'. rewrite <- !flat_map_concat_map. apply Permutation_flat_map. exact P.
Qed.
Lemma sumR_perm l l' : Permutation l l' -> sumR l = sumR l'.
Proof. intros P. unfold sumR. induction P as [|x l l' P IH|x y l|l1 l2 l3 P1 IH1 P2 IH2]; cbn; [reflexivity|rewrite IH; reflexivity|ring|congruence]. Qed.
Lemma calc_stats_perm rows rows' : Permutation rows rows' -> calc_stats rows = calc_stats rows'.
Proof.
  intros P. unfold calc_stats. cbv zeta.
  assert (Pr := Permutation_map rad P). assert (Pa := Permutation_flat_map ang P).
  rewrite (sumR_perm _ _ Pr), (sumR_perm _ _ Pa), (sumR_perm _ _ (Permutation_map (fun x => x * x)%R Pr)), (sumR_perm _ _ (Permutation_map (fun x => x * x)%R Pa)), (Permutation_length Pr). reflexivity.
Qed.

Section Order.
Context (argsort : list R -> list nat) (rcut rs : R) (s0 s1 s2 : Z) (nbrs : list Z) (maxs : list nat).
Notation sample := (sample argsort rcut rs s0 s1 s2 nbrs maxs).
Notation set_stats := (set_stats argsort rcut rs s0 s1 s2 nbrs maxs).
Lemma sample_perm ss is is' c rows : Permutation is is' -> sample ss is c = Ok rows -> exists rows', sample ss is' c = Ok rows' /\ Permutation rows rows'.
Proof.
  intros P. unfold SetStatsModel.sample. destruct (mapM (pick ss) is) as [ts|e] eqn:E1; [|discriminate]. cbn [bind]. destruct (mapM_perm _ _ _ _ P E1) as (ts' & -> & P1). cbn [bind].
  destruct (mapM _ ts) as [bs|e] eqn:E2; [|discriminate]. cbn [bind]. destruct (mapM_perm _ _ _ _ P1 E2) as (bs' & -> & P2). cbn [bind].
  destruct (hcat bs) as [b|e] eqn:E3; [|discriminate]. cbn [bind]. destruct (hcat_perm _ _ _ P2 E3) as (b' & -> & P3). cbn [bind]. intros H. injection H as <-.
  eexists. split; [reflexivity|]. apply Permutation_map. exact P3.
Qed.
Lemma mapM_same {X Y} (f g : X -> result Y) l r : (forall x y, In x l -> f x = Ok y -> g x = Ok y) -> mapM f l = Ok r -> mapM g l = Ok r.
Proof.
  revert r. induction l as [|x l IH]; intros r H E; [exact E|]. cbn [mapM] in *. destruct (f x) as [a|e] eqn:Ea; [|discriminate]. cbn [bind] in *. rewrite (H x a (or_introl eq_refl) Ea). cbn [bind].
  destruct (mapM f l) as [q|e]; [|discriminate]. cbn [bind] in *. rewrite (IH q); [exact E|intros y z Iy; apply H; right; exact Iy|reflexivity].
Qed.
Lemma set_stats_perm ss is is' cs d : Permutation is is' -> set_stats ss is cs = Ok d -> set_stats ss is' cs = Ok d.
Proof.
  intros P. unfold SetStatsModel.set_stats. destruct (mapM _ cs) as [l|e] eqn:E; [|discriminate]. intros H.
  replace (mapM (fun c => bind (sample ss is' c) (fun rows => Ok (calc_stats rows))) cs) with (@Ok (list ((R * R * R * R) * (option R * option R * option R * option R))) l); [exact H|].
  symmetry. apply (mapM_same (fun c => bind (sample ss is c) (fun rows => Ok (calc_stats rows)))); [|exact E].
  intros c y _. cbn beta. destruct (sample ss is c) as [rows|e] eqn:Er; [|discriminate]. cbn [bind]. intros Q. injection Q as <-. destruct (sample_perm ss is is' c rows P Er) as (rows' & -> & Pr). cbn [bind]. f_equal. symmetry. apply calc_stats_perm. exact Pr.
Qed.
Lemma from_set_perm ss is is' cs n : Permutation is is' -> from_set argsort ss is rcut rs cs nbrs maxs s0 s1 s2 = Ok n -> from_set argsort ss is' rcut rs cs nbrs maxs s0 s1 s2 = Ok n.
Proof.
  intros P. unfold from_set. destruct (set_stats ss is cs) as [d|e] eqn:E; [|discriminate]. rewrite (set_stats_perm ss is is' cs d P E). auto.
Qed.

(** *** What is delivered can be used *)
Lemma mapM_length {X Y} (f : X -> result Y) l r : mapM f l = Ok r -> length r = length l.
Proof.
  revert r. induction l as [|x l IH]; intros r H; [injection H as <-; reflexivity|]. cbn [mapM] in H. destruct (f x); [|discriminate]. cbn [bind] in H. destruct (mapM f l); [|discriminate]. cbn [bind] in H. injection H as <-. cbn. f_equal. apply IH. reflexivity.
Qed.
Lemma mapM_in {X Y} (f : X -> result Y) l r y : mapM f l = Ok r -> In y r -> exists x, In x l /\ f x = Ok y.
Proof.
  revert r. induction l as [|x l IH]; intros r H I; [injection H as <-; destruct I|]. cbn [mapM] in H. destruct (f x) as [a|e] eqn:Ea; [|discriminate]. cbn [bind] in H. destruct (mapM f l) as [q|e]; [|discriminate]. cbn [bind] in H. injection H as <-.
  destruct I as [<-|I]; [exists x; split; [left; reflexivity|exact Ea]|]. destruct (IH q eq_refl I) as (x' & Ix & Ex). exists x'. split; [right; exact Ix|exact Ex].
Qed.
Lemma set_stats_usable ss is cs d : set_stats ss is cs = Ok d ->
  length (fst d) = length cs /\ length (snd d) = length cs /\ cs <> [] /\
  Forall (fun r => exists a, r = [a; 0; 0; 0]%R) (fst d) /\ Forall (fun r => length r = 4 /\ Forall (fun o => exists x, o = Some x /\ (1 / 100 <= x)%R) r) (snd d).
Proof.
  unfold SetStatsModel.set_stats. destruct (mapM _ cs) as [l|e] eqn:E; [|discriminate]. cbn [bind]. assert (L := mapM_length _ _ _ E).
  intros H. assert (Hd : d = (map (fun s => let '((a0, a1, a2, a3), _) := s in [a0; a1; a2; a3]) l, map (fun s => let '(_, (d0, d1, d2, d3)) := s in [d0; d1; d2; d3]) l) /\ l <> []) by (destruct l; [discriminate|split; [congruence|discriminate]]).
  destruct Hd as [-> Nl]. cbn [fst snd]. rewrite !map_length. do 2 (split; [exact L|]). split; [intros ->; destruct l; [contradiction|discriminate L]|].
  assert (A : forall s', In s' l -> exists rows, s' = calc_stats rows).
  { intros s' I. destruct (mapM_in _ _ _ _ E I) as (c & _ & Ec). cbn beta in Ec. destruct (sample ss is c) as [rows|e]; [|discriminate]. exists rows. cbn [bind] in Ec. congruence. }
  split; apply Forall_forall; intros r Ir; apply in_map_iff in Ir; destruct Ir as (s' & <- & Is); destruct (A s' Is) as [rows ->]; destruct (stats_floor rows) as (a0 & d0 & d1 & d2 & d3 & -> & H0 & H1 & H2 & H3).
  - exists a0. reflexivity.
  - split; [reflexivity|]. repeat (constructor; [eexists; split; [reflexivity|assumption]|]). constructor.
Qed.
Lemma from_set_usable ss is cs n : from_set argsort ss is rcut rs cs nbrs maxs s0 s1 s2 = Ok n ->
  (n_rcut n = rcut /\ n_smooth n = rs /\ n_centers n = cs /\ n_nbrs n = nbrs /\ n_max n = maxs /\ n_scaling n = [s0; s1; s2]) /\ usable n.
Proof.
  unfold from_set. destruct (set_stats ss is cs) as [d|e] eqn:E; [|discriminate]. cbn [bind]. unfold new_normalizer. destruct (_ && _); [|discriminate]. intros H. injection H as <-. split; [repeat split|]. exact (set_stats_usable ss is cs d E).
Qed.
(** The assertions of the constructor never fail. *)
Lemma from_set_works ss is cs d : set_stats ss is cs = Ok d -> exists n, from_set argsort ss is rcut rs cs nbrs maxs s0 s1 s2 = Ok n /\ n_davgs n = fst d /\ n_dstds n = snd d.
Proof.
  intros E. destruct (set_stats_usable ss is cs d E) as (L1 & L2 & _ & F1 & F2). unfold from_set. rewrite E. cbn [bind]. unfold new_normalizer, shape4. cbn [n_centers n_davgs n_dstds]. rewrite L1, L2, !Nat.eqb_refl. cbn [andb].
  replace (forallb _ (fst d)) with true; [replace (forallb _ (snd d)) with true|].
  - cbn [andb]. eexists. split; [reflexivity|]. auto.
  - symmetry. apply forallb_forall. intros r I. apply Nat.eqb_eq. rewrite Forall_forall in F2. apply (F2 r I).
  - symmetry. apply forallb_forall. intros r I. apply Nat.eqb_eq. rewrite Forall_forall in F1. destruct (F1 r I) as [a ->]. reflexivity.
Qed.
End Order.

Lemma shape4_spec {X} cs (d : list (list X)) : shape4 cs d = true <-> of_shape cs d.
Proof.
  unfold shape4, of_shape. rewrite Bool.andb_true_iff, Nat.eqb_eq, forallb_forall. split; intros [A B]; (split; [exact A|]); intros r I; [apply Nat.eqb_eq|apply Nat.eqb_eq]; exact (B r I).
Qed.
Lemma constructed n : (of_shape (n_centers n) (n_davgs n) /\ of_shape (n_centers n) (n_dstds n) -> new_normalizer n = Ok n) /\
  (~ (of_shape (n_centers n) (n_davgs n) /\ of_shape (n_centers n) (n_dstds n)) -> new_normalizer n = Err AssertionError).
Proof.
  unfold new_normalizer. rewrite <- !shape4_spec, <- Bool.andb_true_iff. destruct (_ && _); split; intros H; congruence || (exfalso; apply H; reflexivity).
Qed.

(** *** Files *)
Lemma round_trip n m : new_normalizer n = Ok m -> from_file (to_file m) = Ok n.
Proof.
  intros H. assert (m = n) by (unfold new_normalizer in H; destruct (_ && _); [congruence|discriminate]). subst m. unfold from_file, to_file. cbn [named String.eqb Ascii.eqb Bool.eqb bind number integers naturals table otable].
  destruct n. exact H.
Qed.
Lemma missing n k : In k (map fst (to_file n)) -> from_file (filter (fun e => negb (fst e =? k)%string) (to_file n)) = Err KeyError.
Proof. unfold to_file. cbn [map fst]. intros I. repeat (destruct I as [<-|I]; [reflexivity|]). destruct I. Qed.
