From Verif Require Import SlotSpec SlotProofs BatchModel BatchSpec.
Local Open Scope nat_scope.
Local Open Scope list_scope.

Lemma write_group_length {A} (vs : list A) a pos a' : write_group a pos vs = Ok a' -> length a' = length a.
Proof.
  intros E. destruct vs as [|v vs]; [cbn in E; congruence|].
  destruct (Nat.le_gt_cases (pos + length (v :: vs)) (length a)) as [L|L].
  - destruct (write_group_ok _ _ _ L) as (b & Eb & Lb & _). congruence.
  - rewrite write_group_bad in E; [discriminate|discriminate|exact L].
Qed.
Lemma write_group_app {A} (u old rest vs : list A) : length vs = length old ->
  write_group (u ++ old ++ rest) (length u) vs = Ok (u ++ vs ++ rest).
Proof.
  revert u old. induction vs as [|v vs IH]; intros u [|o old] L; try discriminate; [reflexivity|].
  cbn [write_group]. change ((o :: old) ++ rest) with (o :: (old ++ rest)). rewrite set_app. cbn [bind].
  specialize (IH (u ++ [v]) old ltac:(cbn in L; lia)). rewrite app_length in IH. cbn [length] in IH.
  replace (length u + 1) with (S (length u)) in IH by lia.
  rewrite <- !app_assoc in IH. exact IH.
Qed.

Lemma foldM_keeps {A T} (f : T -> A -> result T) (P : T -> Prop) l : (forall s a s', P s -> f s a = Ok s' -> P s') ->
  forall s s', P s -> foldM f l s = Ok s' -> P s'.
Proof.
  intros H. induction l as [|x l IH]; intros s s' Hs E; cbn in E; [congruence|].
  destruct (f s x) as [t|] eqn:Et; cbn in E; [|discriminate]. eapply IH; [|exact E]. eapply H; eauto.
Qed.

Lemma fill_length {V} (zero : V) g payload inum numneigh firstneigh types umax a :
  fill zero g payload inum numneigh firstneigh types umax = Ok a -> length a = inum * width umax * g.
Proof.
  unfold fill. intros E. rewrite <- (repeat_length zero (inum * width umax * g)).
  revert E. set (a0 := repeat zero (inum * width umax * g)). intros E.
  apply (foldM_keeps _ (fun a => length a = length a0) _) in E; auto.
  intros s ii s' Hs H. unfold centre_step in H.
  destruct (get numneigh ii) as [n|]; cbn [bind] in H; [|discriminate].
  destruct (foldM _ (seq 0 n) _) as [st|] eqn:F; cbn [bind] in H; [|discriminate].
  assert (s' = fst st) as -> by congruence.
  apply (foldM_keeps _ (fun st : list V * list nat => length (fst st) = length a0) _) in F; auto.
  intros [b nl] jj st' Hb G. cbn [fst] in Hb. unfold neigh_step in G.
  destruct (get firstneigh _); cbn [bind] in G; [|discriminate].
  destruct (get types _); cbn [bind] in G; [|discriminate].
  destruct (get (starts umax) _); cbn [bind] in G; [|discriminate].
  destruct (get nl _); cbn [bind] in G; [|discriminate].
  destruct (payload _ _ _); cbn [bind] in G; [|discriminate].
  destruct (write_group b _ _) as [b'|] eqn:W; cbn [bind] in G; [|discriminate].
  destruct (set nl _ _) as [nl'|]; cbn [bind] in G; [|discriminate].
  assert (st' = (b', nl')) as -> by congruence. cbn [fst]. rewrite (write_group_length _ _ _ _ W). exact Hb.
Qed.

(** ** Placing *)
Definition padded {V} (zero : V) (part : nat) (o : list V) : list V := o ++ repeat zero (part - length o).

Lemma lay_ok {V} (zero : V) part (outs : list (list V)) : forall ii u,
  Forall (fun o => length o <= part) outs -> length u = ii * part ->
  lay_out part ii (map Ok outs) (u ++ repeat zero (length outs * part)) = Ok (u ++ concat (map (padded zero part) outs)).
Proof.
  induction outs as [|o outs IH]; intros ii u F L; [reflexivity|].
  inversion F as [|? ? Ho Fr]; subst. cbn [map lay_out bind length].
  replace (S (length outs) * part) with (length o + ((part - length o) + length outs * part)) by lia.
  rewrite !repeat_app, <- L. rewrite write_group_app by (now rewrite repeat_length). cbn [bind].
  specialize (IH (S ii) (u ++ padded zero part o) Fr).
  rewrite app_length in IH. unfold padded in IH at 1 2. rewrite app_length, repeat_length in IH.
  rewrite <- !app_assoc in IH. rewrite IH by lia. reflexivity.
Qed.
Lemma part_concat {V} part (ls : list (list V)) k : Forall (fun l => length l = part) ls -> k < length ls ->
  part_of part k (concat ls) = nth k ls [].
Proof.
  unfold part_of. revert k. induction ls as [|l ls IH]; intros k F H; [cbn in H; lia|].
  inversion F as [|? ? Hl Fr]; subst. cbn [concat]. destruct k as [|k].
  - cbn [Nat.mul skipn nth]. rewrite firstn_app, Nat.sub_diag, firstn_all. cbn. now rewrite app_nil_r.
  - cbn [Nat.mul nth]. rewrite skipn_app, (skipn_all2 l) by lia.
    replace (length l + k * length l - length l) with (k * length l) by lia. cbn [app]. apply IH; [exact Fr|cbn in H; lia].
Qed.
Lemma padded_length {V} (zero : V) part o : length o <= part -> length (padded zero part o) = part.
Proof. intros H. unfold padded. rewrite app_length, repeat_length. lia. Qed.

Lemma lay_parts {V} (zero : V) part (outs : list (list V)) : Forall (fun o => length o <= part) outs ->
  exists mem, lay_out part 0 (map Ok outs) (repeat zero (length outs * part)) = Ok mem /\ length mem = length outs * part /\
    forall k, k < length outs -> part_of part k mem = nth k outs [] ++ repeat zero (part - length (nth k outs [])).
Proof.
  intros F. exists (concat (map (padded zero part) outs)). split; [apply (lay_ok zero part outs 0 [] F); reflexivity|].
  assert (Forall (fun l => length l = part) (map (padded zero part) outs)) as G.
  { apply Forall_map. eapply Forall_impl; [|exact F]. intros o Ho. now apply padded_length. }
  split.
  - clear F. revert G. generalize outs. intros l. induction l as [|o l IH]; intros G; [reflexivity|].
    cbn [map concat length]. inversion G; subst. rewrite app_length, IH; auto. cbn. lia.
  - intros k Hk. rewrite part_concat; [|exact G|now rewrite map_length].
    rewrite (nth_indep _ [] (padded zero part [])) by (now rewrite map_length). rewrite map_nth. reflexivity.
Qed.

(** A structure that fails, or does not fit behind the last position. *)
Lemma lay_fails {V} part (outs : list (result (list V))) k e : forall ii mem,
  nth_error outs k = Some (Err e) ->
  (forall j o, j < k -> nth_error outs j = Some o -> exists vs, o = Ok vs /\ (ii + j) * part + length vs <= length mem) ->
  lay_out part ii outs mem = Err e.
Proof.
  revert k. induction outs as [|o outs IH]; intros k ii mem Hk H; [destruct k; discriminate|].
  destruct k as [|k]; cbn in Hk; [injection Hk as ->; reflexivity|].
  destruct (H 0 o) as (vs & -> & Hl); [lia|reflexivity|]. rewrite Nat.add_0_r in Hl. cbn [lay_out bind].
  destruct (write_group_ok vs mem (ii * part) Hl) as (m' & Ew & Lm & _). rewrite Ew. cbn [bind].
  apply (IH k (S ii) m' Hk). intros j o Hj Hn. destruct (H (S j) o) as (ws & -> & Hw); [lia|exact Hn|].
  exists ws. split; [reflexivity|]. rewrite Lm. replace (S ii + j) with (ii + S j) by lia. exact Hw.
Qed.
Lemma lay_last_wide {V} part (outs : list (list V)) (o : list V) : forall ii mem,
  part < length o -> length mem = (ii + S (length outs)) * part -> lay_out part ii (map Ok (outs ++ [o])) mem = Err IndexError.
Proof.
  induction outs as [|p outs IH]; intros ii mem Ho L; cbn [app map lay_out bind].
  - rewrite write_group_bad; [reflexivity|intros ->; cbn in Ho; lia|rewrite L; cbn [length]; lia].
  - destruct (write_group mem (ii * part) p) as [m'|e] eqn:E; cbn [bind].
    + apply IH; [exact Ho|]. rewrite (write_group_length _ _ _ _ E), L. cbn [length]. lia.
    + destruct p as [|x p]; [cbn in E; discriminate|].
      destruct (Nat.le_gt_cases (ii * part + length (x :: p)) (length mem)) as [Hl|Hl].
      * destruct (write_group_ok _ _ _ Hl) as (b & Eb & _). congruence.
      * rewrite write_group_bad in E; [congruence|discriminate|exact Hl].
Qed.

(** ** The operators *)
Lemma env_run_length inum rc rs i v dv : env_run inum rc rs i = Ok (v, dv) ->
  length v = inum * reserved (im_umax i) * 4 /\ length dv = inum * reserved (im_umax i) * 12.
Proof.
  unfold env_run, find_value_deriv. cbv zeta. intros E.
  destruct (fill _ 4 _ _ _ _ _ _) as [v'|] eqn:E1; cbn [bind] in E; [|discriminate].
  destruct (fill _ 12 _ _ _ _ _ _) as [dv'|] eqn:E2; cbn [bind] in E; [|discriminate].
  assert (v' = v /\ dv' = dv) as [-> ->] by (split; congruence).
  rewrite (fill_length _ _ _ _ _ _ _ _ _ E1), (fill_length _ _ _ _ _ _ _ _ _ E2), width_sum. auto.
Qed.

Lemma runs_ok {A B} (run : A -> result B) (l : list A) : (forall i, In i l -> exists o, run i = Ok o) ->
  exists outs, map run l = map Ok outs /\ length outs = length l.
Proof.
  induction l as [|i l IH]; intros H; [exists []; split; reflexivity|].
  destruct (H i) as [o Eo]; [now left|]. destruct IH as (outs & E & L); [intros; apply H; now right|].
  exists (o :: outs). cbn [map length]. rewrite Eo, E, L. split; reflexivity.
Qed.
Lemma runs_nth {A B} (run : A -> result B) l outs k i : map run l = map Ok outs -> nth_error l k = Some i ->
  exists o, nth_error outs k = Some o /\ run i = Ok o.
Proof.
  intros E Hk. assert (nth_error (map run l) k = Some (run i)) as H by (now rewrite nth_error_map, Hk).
  rewrite E, nth_error_map in H. destruct (nth_error outs k) as [o|]; [|discriminate]. exists o. split; [reflexivity|].
  cbn in H. congruence.
Qed.

Lemma map_bind_ok {A B} (f : A -> B) (outs : list A) : map (fun o => bind o (fun p => Ok (f p))) (map Ok outs) = map Ok (map f outs).
Proof. rewrite !map_map. reflexivity. Qed.

Lemma env_batch inum rc rs first rest :
  let batch := first :: rest in
  let W := reserved (im_umax first) in
  (forall i, In i batch -> reserved (im_umax i) <= W) ->
  (forall i, In i batch -> exists o, env_run inum rc rs i = Ok o) ->
  exists v dv, env_forward inum rc rs batch = Ok (v, dv) /\
    length v = length batch * (inum * W * 4) /\ length dv = length batch * (inum * W * 12) /\
    forall k i a da, nth_error batch k = Some i -> env_run inum rc rs i = Ok (a, da) ->
      part_of (inum * W * 4) k v = a ++ repeat 0%R (inum * (W - reserved (im_umax i)) * 4) /\
      part_of (inum * W * 12) k dv = da ++ repeat 0%R (inum * (W - reserved (im_umax i)) * 12).
Proof.
  intros batch W Hw Hr. destruct (runs_ok _ _ Hr) as (outs & E & L).
  unfold env_forward. change (get batch 0) with (Ok first). cbn [bind]. cbv zeta. rewrite width_sum. fold W.
  rewrite E, !map_bind_ok.
  assert (forall o, In o outs -> length (fst o) <= inum * W * 4 /\ length (snd o) <= inum * W * 12) as Hlen.
  { intros [a da] Ho. destruct (In_nth_error _ _ Ho) as [k Hk].
    assert (nth_error (map (env_run inum rc rs) batch) k = Some (Ok (a, da))) as Hn by (rewrite E, nth_error_map, Hk; reflexivity).
    rewrite nth_error_map in Hn. destruct (nth_error batch k) as [i|] eqn:Hi; [|discriminate].
    assert (env_run inum rc rs i = Ok (a, da)) as Hrun by (cbn in Hn; congruence).
    destruct (env_run_length _ _ _ _ _ _ Hrun) as [La Lda]. cbn [fst snd]. rewrite La, Lda.
    specialize (Hw i (nth_error_In _ _ Hi)). split; apply Nat.mul_le_mono_r, Nat.mul_le_mono_l; exact Hw. }
  destruct (lay_parts 0%R (inum * W * 4) (map fst outs)) as (v & Ev & Lv & Pv).
  { apply Forall_map, Forall_forall. intros o Ho. apply (Hlen o Ho). }
  destruct (lay_parts 0%R (inum * W * 12) (map snd outs)) as (dv & Ed & Ld & Pd).
  { apply Forall_map, Forall_forall. intros o Ho. apply (Hlen o Ho). }
  rewrite map_length in Ev, Ed, Lv, Ld, Pv, Pd. rewrite L in Ev, Ed, Lv, Ld.
  exists v, dv. rewrite Ev. cbn [bind]. rewrite Ed. cbn [bind]. split; [reflexivity|]. split; [exact Lv|]. split; [exact Ld|].
  intros k i a da Hk Hrun. destruct (runs_nth _ _ _ _ _ E Hk) as (o & Ho & Hro).
  assert (o = (a, da)) as -> by congruence.
  assert (k < length outs) as Hlt by (apply nth_error_Some; congruence).
  destruct (env_run_length _ _ _ _ _ _ Hrun) as [La Lda].
  rewrite (Pv k Hlt), (Pd k Hlt).
  assert (forall f : list R * list R -> list R, nth k (map f outs) [] = f (a, da)) as Hnth.
  { intros f. apply nth_error_nth. now rewrite nth_error_map, Ho. }
  rewrite !Hnth. cbn [fst snd]. rewrite La, Lda. rewrite !Nat.mul_sub_distr_l, !Nat.mul_sub_distr_r. split; reflexivity.
Qed.

Lemma env_batch_equal inum rc rs first rest :
  let batch := first :: rest in
  let W := reserved (im_umax first) in
  (forall i, In i batch -> reserved (im_umax i) = W) ->
  (forall i, In i batch -> exists o, env_run inum rc rs i = Ok o) ->
  exists v dv, env_forward inum rc rs batch = Ok (v, dv) /\
    length v = length batch * (inum * W * 4) /\ length dv = length batch * (inum * W * 12) /\
    forall k i, nth_error batch k = Some i -> env_run inum rc rs i = Ok (part_of (inum * W * 4) k v, part_of (inum * W * 12) k dv).
Proof.
  intros batch W Hw Hr. destruct (env_batch inum rc rs first rest) as (v & dv & E & Lv & Ld & H); [|exact Hr|].
  { intros i Hi. now rewrite (Hw i Hi). }
  exists v, dv. split; [exact E|]. split; [exact Lv|]. split; [exact Ld|].
  intros k i Hk. pose proof (nth_error_In _ _ Hk) as Hin. destruct (Hr i Hin) as [[a da] Hrun].
  destruct (H k i a da Hk Hrun) as [H1 H2]. fold W in H1, H2. rewrite (Hw i Hin), Nat.sub_diag, Nat.mul_0_r in H1, H2.
  cbn [Nat.mul repeat] in H1, H2. rewrite app_nil_r in H1, H2. rewrite H1, H2. exact Hrun.
Qed.

Lemma env_last_wide inum rc rs first mid last :
  let batch := first :: mid ++ [last] in
  0 < inum -> reserved (im_umax first) < reserved (im_umax last) ->
  (forall i, In i batch -> exists o, env_run inum rc rs i = Ok o) ->
  env_forward inum rc rs batch = Err IndexError.
Proof.
  intros batch Hin Hw Hr. unfold env_forward. change (get batch 0) with (Ok first). cbn [bind]. cbv zeta. rewrite width_sum.
  destruct (runs_ok (env_run inum rc rs) (first :: mid)) as (outs & E & L).
  { intros i Hi. apply Hr. unfold batch. change (In i ((first :: mid) ++ [last])). apply in_app_iff. now left. }
  destruct (Hr last) as [[a da] Hl]. { unfold batch. right. apply in_app_iff. right. now left. }
  assert (map (env_run inum rc rs) batch = map Ok (outs ++ [(a, da)])) as Eb.
  { unfold batch. change (first :: mid ++ [last]) with ((first :: mid) ++ [last]). rewrite !map_app, E. cbn [map]. now rewrite Hl. }
  rewrite Eb, map_bind_ok, map_app. cbn [map fst].
  rewrite (lay_last_wide _ (map fst outs) a 0); [reflexivity| |].
  - destruct (env_run_length _ _ _ _ _ _ Hl) as [-> _]. apply Nat.mul_lt_mono_pos_r; [lia|]. apply Nat.mul_lt_mono_pos_l; assumption.
  - rewrite repeat_length, map_length, L. unfold batch. cbn [length]. rewrite app_length. cbn [length]. f_equal. lia.
Qed.

Lemma pw_run_length inum umax rc rs i v dv rel : pw_run inum umax rc rs i = Ok (v, dv, rel) ->
  length v = inum * reserved umax * 4 /\ length dv = inum * reserved umax * 12 /\ length rel = inum * reserved umax * 3.
Proof.
  unfold pw_run, se4pw_generate. cbv zeta. intros E.
  destruct (fill _ 4 _ _ _ _ _ _) as [v'|] eqn:E1; cbn [bind] in E; [|discriminate].
  destruct (fill _ 12 _ _ _ _ _ _) as [dv'|] eqn:E2; cbn [bind] in E; [|discriminate].
  destruct (fill _ 3 _ _ _ _ _ _) as [rel'|] eqn:E3; cbn [bind] in E; [|discriminate].
  assert (v' = v /\ dv' = dv /\ rel' = rel) as (-> & -> & ->) by (repeat split; congruence).
  rewrite (fill_length _ _ _ _ _ _ _ _ _ E1), (fill_length _ _ _ _ _ _ _ _ _ E2), (fill_length _ _ _ _ _ _ _ _ _ E3), width_sum. auto.
Qed.

Lemma exact_parts {V} (zero : V) part (outs : list (list V)) : Forall (fun o => length o = part) outs ->
  exists mem, lay_out part 0 (map Ok outs) (repeat zero (length outs * part)) = Ok mem /\ length mem = length outs * part /\
    forall k, k < length outs -> part_of part k mem = nth k outs [].
Proof.
  intros F. destruct (lay_parts zero part outs) as (mem & E & L & P).
  { eapply Forall_impl; [|exact F]. cbn. intros; lia. }
  exists mem. split; [exact E|]. split; [exact L|]. intros k Hk. rewrite (P k Hk).
  assert (length (nth k outs []) = part) as -> by (rewrite Forall_forall in F; apply F, nth_In, Hk).
  rewrite Nat.sub_diag. cbn [repeat]. apply app_nil_r.
Qed.

Lemma pw_batch inum umax rc rs batch :
  let W := reserved umax in
  (forall i, In i batch -> exists o, pw_run inum umax rc rs i = Ok o) ->
  exists v dv rel, pw_forward inum umax rc rs batch = Ok (v, dv, rel) /\
    length v = length batch * (inum * W * 4) /\ length dv = length batch * (inum * W * 12) /\ length rel = length batch * (inum * W * 3) /\
    forall k i, nth_error batch k = Some i ->
      pw_run inum umax rc rs i = Ok (part_of (inum * W * 4) k v, part_of (inum * W * 12) k dv, part_of (inum * W * 3) k rel).
Proof.
  intros W Hr. destruct (runs_ok _ _ Hr) as (outs & E & L).
  unfold pw_forward. cbv zeta. rewrite width_sum. fold W. rewrite E, !map_bind_ok.
  assert (forall o, In o outs -> length (fst (fst o)) = inum * W * 4 /\ length (snd (fst o)) = inum * W * 12 /\ length (snd o) = inum * W * 3) as Hlen.
  { intros [[a da] ra] Ho. destruct (In_nth_error _ _ Ho) as [k Hk].
    assert (nth_error (map (pw_run inum umax rc rs) batch) k = Some (Ok (a, da, ra))) as Hn by (rewrite E, nth_error_map, Hk; reflexivity).
    rewrite nth_error_map in Hn. destruct (nth_error batch k) as [i|] eqn:Hi; [|discriminate].
    assert (pw_run inum umax rc rs i = Ok (a, da, ra)) as Hrun by (cbn in Hn; congruence). exact (pw_run_length _ _ _ _ _ _ _ _ Hrun). }
  destruct (exact_parts 0%R (inum * W * 4) (map (fun p => fst (fst p)) outs)) as (v & Ev & Lv & Pv).
  { apply Forall_map, Forall_forall. intros o Ho. apply (Hlen o Ho). }
  destruct (exact_parts 0%R (inum * W * 12) (map (fun p => snd (fst p)) outs)) as (dv & Ed & Ld & Pd).
  { apply Forall_map, Forall_forall. intros o Ho. apply (Hlen o Ho). }
  destruct (exact_parts 0%R (inum * W * 3) (map snd outs)) as (rel & Er & Lr & Pr).
  { apply Forall_map, Forall_forall. intros o Ho. apply (Hlen o Ho). }
  rewrite map_length in Ev, Ed, Er, Lv, Ld, Lr, Pv, Pd, Pr. rewrite L in Ev, Ed, Er, Lv, Ld, Lr.
  exists v, dv, rel. rewrite Ev. cbn [bind]. rewrite Ed. cbn [bind]. rewrite Er. cbn [bind].
  repeat (split; [assumption || reflexivity|]).
  intros k i Hk. destruct (runs_nth _ _ _ _ _ E Hk) as ([[a da] ra] & Ho & Hro).
  assert (k < length outs) as Hlt by (apply nth_error_Some; congruence).
  rewrite (Pv k Hlt), (Pd k Hlt), (Pr k Hlt), Hro.
  assert (forall f : list R * list R * list R -> list R, nth k (map f outs) [] = f (a, da, ra)) as Hnth.
  { intros f. apply nth_error_nth. now rewrite nth_error_map, Ho. }
  rewrite !Hnth. reflexivity.
Qed.

Lemma prim_batch inum umax batch :
  let W := reserved umax in
  let run i := prim_indices inum (im_numneigh i) (im_firstneigh i) (im_types i) umax in
  (forall i, In i batch -> exists o, run i = Ok o) ->
  exists a, prim_forward inum umax batch = Ok a /\ length a = length batch * (inum * W) /\
    forall k i, nth_error batch k = Some i -> run i = Ok (part_of (inum * W) k a).
Proof.
  intros W run Hr. destruct (runs_ok _ _ Hr) as (outs & E & L).
  unfold prim_forward. fold run. rewrite width_sum. fold W. rewrite E.
  destruct (exact_parts 0%Z (inum * W) outs) as (a & Ea & La & Pa).
  { apply Forall_forall. intros o Ho. destruct (In_nth_error _ _ Ho) as [k Hk].
    assert (nth_error (map run batch) k = Some (Ok o)) as Hn by (rewrite E, nth_error_map, Hk; reflexivity).
    rewrite nth_error_map in Hn. destruct (nth_error batch k) as [i|] eqn:Hi; [|discriminate].
    assert (run i = Ok o) as Hrun by (cbn in Hn; congruence). unfold run, prim_indices in Hrun.
    rewrite (fill_length _ _ _ _ _ _ _ _ _ Hrun), width_sum. unfold W. lia. }
  rewrite L in Ea, La. exists a. split; [exact Ea|]. split; [exact La|].
  intros k i Hk. destruct (runs_nth _ _ _ _ _ E Hk) as (o & Ho & Hro).
  assert (k < length outs) as Hlt by (apply nth_error_Some; congruence).
  rewrite (Pa k Hlt), Hro. f_equal. symmetry. now apply nth_error_nth.
Qed.

(** Any structure that cannot be treated stops the batch. *)
Lemma pw_failing inum umax rc rs batch k i e : nth_error batch k = Some i -> pw_run inum umax rc rs i = Err e ->
  (forall j i', j < k -> nth_error batch j = Some i' -> exists o, pw_run inum umax rc rs i' = Ok o) ->
  pw_forward inum umax rc rs batch = Err e.
Proof.
  intros Hk He Hb. unfold pw_forward. cbv zeta. rewrite width_sum.
  rewrite (lay_fails _ _ k e 0); [reflexivity| |].
  - rewrite map_map, nth_error_map, Hk. cbn [option_map]. now rewrite He.
  - intros j o Hj Ho. rewrite map_map, nth_error_map in Ho.
    destruct (nth_error batch j) as [i'|] eqn:Hi; [|discriminate]. destruct (Hb j i' Hj Hi) as [[[v dv] rel] Hrun].
    cbn [option_map] in Ho. rewrite Hrun in Ho. cbn [bind fst] in Ho. exists v. split; [congruence|].
    destruct (pw_run_length _ _ _ _ _ _ _ _ Hrun) as [-> _]. rewrite repeat_length. cbn [Nat.add].
    assert (j < length batch) by (apply nth_error_Some; congruence). nia.
Qed.
