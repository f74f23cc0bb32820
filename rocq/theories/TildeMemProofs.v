(** Proofs about the memory of [TildeR]: tables, constructions, copies and releases. *)
From Verif Require Import HeapModel HeapProofs TildeMemModel TildeMemSpec.
Local Open Scope nat_scope.
Local Open Scope list_scope.

Definition blk (h : heap) (b : nat) (vs : list Z) : Prop := nth_error h b = Some (Some (map Some vs)).
Lemma blk_lt h b vs : blk h b vs -> b < length h.
Proof. unfold blk. intros H. apply nth_error_Some. congruence. Qed.
Lemma blk_app h e b vs : blk h b vs -> blk (h ++ e) b vs.
Proof. intros H. unfold blk. rewrite nth_error_app1; [exact H|now apply blk_lt in H]. Qed.
Lemma load_blk h b vs i : blk h b vs -> i < length vs -> load h (Some b) i = HOk (nth i vs 0%Z).
Proof. intros H. apply load_tab. right. eauto. Qed.

(** ** Memory in use *)
Lemma use_app h e : blocks_in_use (h ++ e) = blocks_in_use h + blocks_in_use e.
Proof. unfold blocks_in_use. now rewrite filter_app, app_length. Qed.
Lemma use_free h b c : nth_error h b = Some (Some c) -> S (blocks_in_use (replace h b None)) = blocks_in_use h.
Proof.
  unfold blocks_in_use. revert b. induction h as [|x h IH]; intros [|b]; cbn [nth_error replace filter]; try discriminate.
  - intros E. injection E as ->. reflexivity.
  - intros E. specialize (IH b E). destruct x; cbn [length]; lia.
Qed.
Lemma free_blk h b c : nth_error h b = Some (Some c) -> exists h', hfree h (Some b) = HOk h' /\ length h' = length h /\
  (forall a, a <> b -> nth_error h' a = nth_error h a) /\ S (blocks_in_use h') = blocks_in_use h.
Proof.
  intros E. exists (replace h b None). cbn [hfree]. rewrite E. split; [reflexivity|]. split; [apply replace_length|].
  split; [|now apply use_free with c]. intros a Ha. rewrite replace_nth. destruct (Nat.eqb_spec a b); [contradiction|reflexivity].
Qed.

(** ** Tables *)
Lemma new_table_ok (e : heap -> nat -> hres Z) h vs :
  (forall c k, k < length vs -> e (h ++ [Some c]) k = HOk (nth k vs 0%Z)) ->
  new_table (length vs) (length vs) e h = HOk (Some (length h), h ++ [Some (map Some vs)]).
Proof.
  intros E. unfold new_table, malloc. rewrite (fill_loop h vs); [reflexivity|]. intros k Hk. unfold partly. rewrite E by auto. reflexivity.
Qed.
Lemma new_table_room (e : heap -> nat -> hres Z) h vs : 2 <= length vs ->
  (forall c k, k < length vs -> e (h ++ [Some c]) k = HOk (nth k vs 0%Z)) -> new_table 1 (length vs) e h = HErr OutOfBounds.
Proof.
  intros L E. unfold new_table, malloc. destruct (length vs) as [|[|n]]; try lia.
  cbn [seq hfold]. rewrite E by lia. cbn [hbind]. unfold store at 1, block_of. rewrite nth_error_app2, Nat.sub_diag by lia.
  cbn [nth_error hbind repeat length Nat.ltb Nat.leb]. rewrite replace_app. cbn [replace hfold].
  rewrite E by lia. cbn [hbind]. unfold store, block_of. rewrite nth_error_app2, Nat.sub_diag by lia. reflexivity.
Qed.

Lemma store_mid (h1 h2 : heap) c k v : k < length c -> store (h1 ++ Some c :: h2) (Some (length h1)) k v = HOk (h1 ++ Some (replace c k (Some v)) :: h2).
Proof.
  intros L. unfold store, block_of. rewrite nth_error_app2, Nat.sub_diag by lia. cbn [nth_error hbind].
  destruct (Nat.ltb_spec k (length c)); [|lia]. now rewrite replace_app.
Qed.
Definition pt (vs : list Z) (k : nat) : list (option Z) := map Some (firstn k vs) ++ repeat None (length vs - k).
Lemma pt_length vs k : k <= length vs -> length (pt vs k) = length vs.
Proof. intros L. unfold pt. rewrite app_length, map_length, repeat_length, firstn_length. lia. Qed.
Lemma pt_step vs k : k < length vs -> replace (pt vs k) k (Some (nth k vs 0%Z)) = pt vs (S k).
Proof.
  intros L. unfold pt. rewrite (firstn_snoc vs k L), map_app, <- app_assoc. cbn [map app].
  replace (length vs - k) with (S (length vs - S k)) by lia. cbn [repeat]. apply replace_app'. rewrite map_length, firstn_length. lia.
Qed.
Lemma pt_all vs : pt vs (length vs) = map Some vs.
Proof. unfold pt. now rewrite Nat.sub_diag, firstn_all, app_nil_r. Qed.

Lemma two_tables_ok (e f : heap -> nat -> hres Z) h vs ws : length ws = length vs ->
  (forall x k, k < length vs -> e (h ++ x) k = HOk (nth k vs 0%Z)) -> (forall x k, k < length vs -> f (h ++ x) k = HOk (nth k ws 0%Z)) ->
  two_tables (length vs) e f h = HOk (Some (length h), Some (S (length h)), h ++ [Some (map Some vs); Some (map Some ws)]).
Proof.
  intros L E F. unfold two_tables, malloc. rewrite app_length, Nat.add_1_r, <- app_assoc. cbn [app].
  assert (G : forall n, n <= length vs ->
    hfold (fun h0 ii => hbind (e h0 ii) (fun v => hbind (store h0 (Some (length h)) ii v) (fun h0 => hbind (f h0 ii) (fun w => store h0 (Some (S (length h))) ii w))))
      (seq 0 n) (h ++ [Some (repeat None (length vs)); Some (repeat None (length vs))]) = HOk (h ++ [Some (pt vs n); Some (pt ws n)])).
  { induction n as [|n IH]; intros Hn.
    - cbn [seq hfold]. unfold pt. cbn [firstn map app]. now rewrite !Nat.sub_0_r, L.
    - rewrite seq_S, hfold_app, IH by lia. cbn [hbind hfold Nat.add]. rewrite E by lia. cbn [hbind].
      rewrite store_mid by (rewrite pt_length; lia). cbn [hbind]. rewrite F by lia. cbn [hbind].
      rewrite pt_step by lia. change (h ++ [Some (pt vs (S n)); Some (pt ws n)]) with (h ++ [Some (pt vs (S n))] ++ [Some (pt ws n)]).
      rewrite app_assoc. replace (S (length h)) with (length (h ++ [Some (pt vs (S n))])) by (rewrite app_length; cbn; lia).
      rewrite store_mid by (rewrite pt_length; lia). rewrite pt_step by lia. cbn [hbind]. now rewrite <- app_assoc. }
  rewrite G by lia. cbn [hbind]. rewrite pt_all. now rewrite <- L, pt_all.
Qed.

Lemma read_table_ok h b vs : blk h b vs -> read_table (Some b) (length vs) h = HOk vs.
Proof.
  intros B. unfold read_table.
  assert (G : forall n, n <= length vs -> hfold (fun out ii => hbind (load h (Some b) ii) (fun v => HOk (out ++ [v]))) (seq 0 n) [] = HOk (firstn n vs)).
  { induction n as [|n IH]; intros Hn; [reflexivity|]. rewrite seq_S, hfold_app, IH by lia. cbn [hbind hfold Nat.add].
    rewrite (load_blk h b vs n B) by lia. cbn [hbind]. now rewrite (firstn_snoc vs n) by lia. }
  rewrite G by lia. now rewrite firstn_all.
Qed.
Lemma sum_snoc l z : fold_right Z.add 0%Z (l ++ [z]) = (fold_right Z.add 0 l + z)%Z.
Proof. induction l as [|a l IH]; cbn [app fold_right]; [lia|]. rewrite IH. lia. Qed.
Lemma add_up_ok h b vs : blk h b vs -> add_up (Some b) (length vs) h = HOk (fold_right Z.add 0%Z vs).
Proof.
  intros B. unfold add_up.
  assert (G : forall n, n <= length vs -> hfold (fun s ii => hbind (load h (Some b) ii) (fun v => HOk (s + v)%Z)) (seq 0 n) 0%Z = HOk (fold_right Z.add 0%Z (firstn n vs))).
  { induction n as [|n IH]; intros Hn; [reflexivity|]. rewrite seq_S, hfold_app, IH by lia. cbn [hbind hfold Nat.add].
    rewrite (load_blk h b vs n B) by lia. cbn [hbind]. now rewrite (firstn_snoc vs n), sum_snoc by lia. }
  rewrite G by lia. now rewrite firstn_all.
Qed.

(** ** Counting *)
Lemma arg_ok {A} (l : list A) i d : i < length l -> arg l i = HOk (nth i l d).
Proof. intros L. unfold arg. now rewrite (nth_error_nth' l d L). Qed.
Lemma count_fold nl z l k : Forall (fun i => i < length (nl_numbers nl)) l ->
  hfold (fun k i => hbind (arg (nl_numbers nl) i) (fun a => HOk (if (a =? z)%Z then S k else k))) l k = HOk (length (filter (is_species nl z) l) + k).
Proof.
  revert k. induction l as [|i l IH]; intros k F; [reflexivity|]. inversion F as [|? ? Hi F']; subst. cbn [hfold filter].
  rewrite (arg_ok _ i 0%Z) by auto. cbn [hbind]. unfold is_species at 1. rewrite (nth_error_nth' _ 0%Z Hi).
  destruct (nth i (nl_numbers nl) 0 =? z)%Z; rewrite IH by auto; cbn [length]; f_equal; lia.
Qed.
Lemma count_centers_ok nl z : sound_list nl -> count_centers nl z = HOk (atoms_of nl z).
Proof.
  intros [L _]. unfold count_centers, atoms_of. rewrite count_fold; [now rewrite Nat.add_0_r|].
  apply Forall_forall. intros i Hi. apply in_seq in Hi. lia.
Qed.
Lemma count_neighs_ok nl l z : Forall (fun i => i < length (nl_numbers nl)) l -> count_neighs nl l z = HOk (length (filter (is_species nl z) l)).
Proof. intros F. unfold count_neighs. rewrite count_fold by auto. now rewrite Nat.add_0_r. Qed.

Lemma nth_map_d {A} (f : A -> Z) l k d : k < length l -> nth k (map f l) 0%Z = f (nth k l d).
Proof. intros L. rewrite (nth_indep _ 0%Z (f d)) by (now rewrite map_length). apply map_nth. Qed.

Lemma calc_centers_ok nl h b cs : sound_list nl -> blk h b cs ->
  calc_centers nl (length cs) (Some b) h = HOk (Some (length h), h ++ [Some (map Some (map (fun z => Z.of_nat (atoms_of nl z)) cs))]).
Proof.
  intros So B. unfold calc_centers.
  pose proof (new_table_ok (fun h ii => hbind (load h (Some b) ii) (fun z => hbind (count_centers nl z) (fun k => HOk (Z.of_nat k)))) h
    (map (fun z => Z.of_nat (atoms_of nl z)) cs)) as T. rewrite map_length in T. apply T. intros c k Hk.
  rewrite (load_blk _ b cs) by (auto using blk_app). cbn [hbind]. rewrite count_centers_ok by auto. cbn [hbind].
  now rewrite (nth_map_d _ cs k 0%Z).
Qed.

Lemma load_last h c k : load (h ++ [Some c]) (Some (length h)) k =
  match nth_error c k with Some (Some v) => HOk v | Some None => HErr Uninitialised | None => HErr OutOfBounds end.
Proof. unfold load, block_of. rewrite nth_error_app2, Nat.sub_diag by lia. reflexivity. Qed.
Lemma replace_map {A B} (f : A -> B) l k x : replace (map f l) k (f x) = map f (replace l k x).
Proof. revert k. induction l as [|a l IH]; intros [|k]; cbn; auto. now rewrite IH. Qed.
Lemma replace_eq {A} (l : list A) k d : replace l k (nth k l d) = l.
Proof. revert k. induction l as [|a l IH]; intros [|k]; cbn; auto. now rewrite IH. Qed.
Lemma replace_again {A} (l : list A) k x y : replace (replace l k x) k y = replace l k y.
Proof. revert k. induction l as [|a l IH]; intros [|k]; cbn; auto. now rewrite IH. Qed.
Lemma nth_replace {A} (l : list A) k x d : k < length l -> nth k (replace l k x) d = x.
Proof. revert k. induction l as [|a l IH]; intros [|k]; cbn [length replace nth]; intros; try lia; auto. apply IH. lia. Qed.
Lemma largest_fold l m : fold_left Nat.max l m = Nat.max m (largest l).
Proof. revert m. induction l as [|a l IH]; intros m; cbn [fold_left largest fold_right]; [lia|]. rewrite IH. unfold largest. lia. Qed.

Lemma max_inner nl h ii z b cs zs m ls : blk h b cs -> ii < length cs -> nth ii cs 0%Z = z -> ii < length zs ->
  Forall (Forall (fun i => i < length (nl_numbers nl))) ls -> nth ii zs 0%Z = Z.of_nat m ->
  hfold (fun h0 l => hbind (load h0 (Some b) ii) (fun z => hbind (count_neighs nl l z) (fun k =>
    hbind (load h0 (Some (length h)) ii) (fun m => if (Z.of_nat k >? m)%Z then store h0 (Some (length h)) ii (Z.of_nat k) else HOk h0)))) ls (h ++ [Some (map Some zs)])
  = HOk (h ++ [Some (map Some (replace zs ii (Z.of_nat (fold_left Nat.max (map (fun l => length (filter (is_species nl z) l)) ls) m))))]).
Proof.
  intros B Hi Ez. revert zs m. induction ls as [|l ls IH]; intros zs m Hz F Em; cbn [hfold map fold_left].
  - now rewrite <- Em, replace_eq.
  - inversion F as [|? ? F1 F2]; subst. rewrite (load_blk _ b cs) by (auto using blk_app). cbn [hbind]. rewrite count_neighs_ok by auto. cbn [hbind].
    rewrite load_last, nth_error_map, (nth_error_nth' zs 0%Z Hz). cbn [option_map]. cbn [hbind]. rewrite Em.
    set (k := length (filter (is_species nl (nth ii cs 0%Z)) l)).
    destruct (Z.gtb_spec (Z.of_nat k) (Z.of_nat m)) as [G|G].
    + rewrite store_mid by (now rewrite map_length). cbn [hbind]. rewrite replace_map.
      rewrite (IH _ k) ; [| |auto|]. 2: { now rewrite replace_length. } 2: { now apply nth_replace. }
      rewrite replace_again. now replace (Nat.max m k) with k by lia.
    + cbn [hbind]. rewrite (IH _ m) by auto. now replace (Nat.max m k) with m by lia.
Qed.
Lemma calc_neighs_ok nl h b ns : sound_list nl -> blk h b ns ->
  calc_neighs nl (length ns) (Some b) h = HOk (Some (length h), h ++ [Some (map Some (map (fun z => Z.of_nat (most_of nl z)) ns))]).
Proof.
  intros [_ So] B. unfold calc_neighs.
  pose proof (new_table_ok (fun _ _ => HOk 0%Z) h (repeat 0%Z (length ns))) as T. rewrite repeat_length in T.
  rewrite T by (intros; now rewrite nth_repeat). clear T. cbn [hbind].
  set (g := fun z => Z.of_nat (most_of nl z)).
  assert (G : forall n, n <= length ns ->
    hfold (fun h0 ii => hfold (fun h0 l => hbind (load h0 (Some b) ii) (fun z => hbind (count_neighs nl l z) (fun k =>
      hbind (load h0 (Some (length h)) ii) (fun m => if (Z.of_nat k >? m)%Z then store h0 (Some (length h)) ii (Z.of_nat k) else HOk h0)))) (nl_lists nl) h0)
      (seq 0 n) (h ++ [Some (map Some (repeat 0%Z (length ns)))])
    = HOk (h ++ [Some (map Some (map g (firstn n ns) ++ repeat 0%Z (length ns - n)))])).
  { induction n as [|n IH]; intros Hn; [now rewrite Nat.sub_0_r|]. rewrite seq_S, hfold_app, IH by lia. cbn [hbind hfold Nat.add].
    assert (L : length (map g (firstn n ns)) = n) by (rewrite map_length, firstn_length; lia).
    rewrite (max_inner nl h n (nth n ns 0%Z) b ns _ 0); auto.
    - cbn [hbind]. rewrite largest_fold. cbn [Nat.max]. change (Z.of_nat (largest _)) with (g (nth n ns 0%Z)).
      rewrite (firstn_snoc ns n), (map_app g), <- app_assoc by lia. cbn [map app].
      replace (length ns - n) with (S (length ns - S n)) by lia. cbn [repeat]. now rewrite replace_app'.
    - rewrite app_length, L, repeat_length. lia.
    - rewrite app_nth2, L by lia. apply nth_repeat. }
  rewrite G by lia. cbn [hbind]. now rewrite firstn_all, Nat.sub_diag, app_nil_r.
Qed.

(** ** Objects *)
Definition ptrs (o : tilde) (a b c d : nat) : Prop :=
  t_centers o = Some a /\ t_neighs o = Some b /\ t_ccounts o = Some c /\ t_ncounts o = Some d.
Definition rep (h : heap) (o : tilde) (v : tvalue) (own : list nat) : Prop :=
  t_list o = v_list v /\ t_rcut o = v_rcut v /\ t_smooth o = v_smooth v /\ t_nc o = length (v_centers v) /\ t_nn o = length (v_neighs v) /\
  match v_centers v with
  | [] => v_neighs v = [] /\ own = []
  | _ :: _ => v_neighs v <> [] /\ exists a b c d, ptrs o a b c d /\ own = [a; b; c; d] /\ NoDup own /\
      blk h a (map fst (v_centers v)) /\ blk h b (map fst (v_neighs v)) /\ blk h c (map snd (v_centers v)) /\ blk h d (map snd (v_neighs v))
  end.

Lemma rep_lt h o v own b : rep h o v own -> In b own -> b < length h.
Proof.
  intros (_ & _ & _ & _ & _ & R) Hb. destruct (v_centers v); [destruct R as [_ ->]; destruct Hb|].
  destruct R as (_ & a & b' & c & d & _ & -> & _ & A & B & C & D). destruct Hb as [<-|[<-|[<-|[<-|[]]]]]; eapply blk_lt; eauto.
Qed.
Lemma rep_frame h h' o v own : (forall b, In b own -> nth_error h' b = nth_error h b) -> rep h o v own -> rep h' o v own.
Proof.
  intros F (H1 & H2 & H3 & H4 & H5 & R). repeat (split; [assumption|]). destruct (v_centers v) as [|p l]; [exact R|].
  destruct R as (N & a & b & c & d & P & -> & D & A & B & C & E). split; [exact N|]. exists a, b, c, d.
  split; [exact P|]. split; [reflexivity|]. split; [exact D|]. unfold blk in *.
  rewrite !F by (cbn; tauto). repeat split; assumption.
Qed.

Lemma show_ok h o v own : rep h o v own -> t_show o h = HOk (summary_of v).
Proof.
  intros (_ & H2 & H3 & H4 & H5 & R). unfold t_show, summary_of. destruct (v_centers v) as [|p l] eqn:E; cbn [length] in H4; [now rewrite H4|].
  destruct R as (N & a & b & c & d & (P1 & P2 & P3 & P4) & -> & D & A & B & C & F). rewrite H4. cbn [Nat.eqb].
  rewrite P1, P2, P3, P4, H5, <- H4, H2, H3.
  replace (t_nc o) with (length (map fst (p :: l))) at 1 by (now rewrite map_length). rewrite read_table_ok by exact A. cbn [hbind].
  replace (length (v_neighs v)) with (length (map fst (v_neighs v))) at 1 by (now rewrite map_length). rewrite read_table_ok by exact B. cbn [hbind].
  replace (t_nc o) with (length (map snd (p :: l))) by (now rewrite map_length). rewrite read_table_ok by exact C. cbn [hbind].
  replace (length (v_neighs v)) with (length (map snd (v_neighs v))) by (now rewrite map_length). rewrite read_table_ok by exact F. cbn [hbind].
  rewrite add_up_ok by exact C. cbn [hbind]. rewrite add_up_ok by exact F. reflexivity.
Qed.

(** Four new blocks. *)
Definition four (l1 l2 l3 l4 : list Z) : heap := [Some (map Some l1); Some (map Some l2); Some (map Some l3); Some (map Some l4)].
Lemma four_blk h l1 l2 l3 l4 : blk (h ++ four l1 l2 l3 l4) (length h) l1 /\ blk (h ++ four l1 l2 l3 l4) (1 + length h) l2 /\
  blk (h ++ four l1 l2 l3 l4) (2 + length h) l3 /\ blk (h ++ four l1 l2 l3 l4) (3 + length h) l4.
Proof.
  unfold blk. repeat split; rewrite nth_error_app2 by lia;
    [replace (length h - length h) with 0 by lia|replace (1 + length h - length h) with 1 by lia|replace (2 + length h - length h) with 2 by lia|replace (3 + length h - length h) with 3 by lia]; reflexivity.
Qed.
Lemma combine_fst {A B} (l : list A) (m : list B) : length m = length l -> map fst (combine l m) = l.
Proof. revert m. induction l as [|a l IH]; intros [|b m]; cbn; intros H; try discriminate; auto. rewrite IH; auto. Qed.
Lemma combine_snd {A B} (l : list A) (m : list B) : length m = length l -> map snd (combine l m) = m.
Proof. revert m. induction l as [|a l IH]; intros [|b m]; cbn; intros H; try discriminate; auto. rewrite IH; auto. Qed.
Lemma four_NoDup n : NoDup [n; 1 + n; 2 + n; 3 + n].
Proof. repeat constructor; cbn; intros H; decompose [or] H; try lia; try contradiction. Qed.

Lemma short_table (ns ks : list Z) h : length ks < length ns -> exists e, new_table (length ns) (length ns) (fun _ => arg ks) h = HErr e.
Proof.
  intros L. unfold new_table, malloc.
  set (f := fun h0 ii => hbind (arg ks ii) (fun v => store h0 (Some (length h)) ii v)).
  assert (G : forall l s, In (length ks) l -> exists e, hfold f l s = HErr e).
  { induction l as [|i l IH]; intros s Hi; [destruct Hi|]. cbn [hfold]. destruct Hi as [->|Hi].
    - unfold f at 1, arg. rewrite (proj2 (nth_error_None ks (length ks))) by lia. cbn [hbind]. eauto.
    - destruct (f s i); cbn [hbind]; [auto|eauto]. }
  destruct (G (seq 0 (length ns)) (h ++ [Some (repeat None (length ns))])) as [e E]; [apply in_seq; lia|]. rewrite E. cbn [hbind]. eauto.
Qed.

Lemma make_ok nl cs ns counts smooth h : sound_list nl -> cs <> [] -> ns <> [] ->
  match tmade nl cs ns counts smooth with
  | Some v => exists o l1 l2 l3 l4, t_make nl cs ns counts smooth h = HOk (o, h ++ four l1 l2 l3 l4) /\ v_centers v <> [] /\
      rep (h ++ four l1 l2 l3 l4) o v [length h; 1 + length h; 2 + length h; 3 + length h]
  | None => exists e, t_make nl cs ns counts smooth h = HErr e
  end.
Proof.
  intros So Hc Hn. unfold tmade, t_make.
  rewrite (new_table_ok (fun _ => arg cs)) by (intros; now rewrite (arg_ok _ _ 0%Z)). cbn [hbind].
  rewrite (new_table_ok (fun _ => arg ns)) by (intros; now rewrite (arg_ok _ _ 0%Z)). cbn [hbind].
  set (h1 := h ++ [Some (map Some cs)]). set (h2 := h1 ++ [Some (map Some ns)]).
  assert (B1 : blk h2 (length h) cs) by (apply blk_app; unfold blk, h1; rewrite nth_error_app2, Nat.sub_diag by lia; reflexivity).
  rewrite (calc_centers_ok nl h2 (length h) cs So B1). cbn [hbind]. set (h3 := h2 ++ _).
  assert (B2 : blk h3 (length h1) ns) by (apply blk_app; unfold blk, h2; rewrite nth_error_app2, Nat.sub_diag by lia; reflexivity).
  assert (L1 : length h1 = 1 + length h) by (unfold h1; rewrite app_length; cbn; lia).
  assert (L2 : length h2 = 2 + length h) by (unfold h2; rewrite app_length, L1; cbn; lia).
  assert (L3 : length h3 = 3 + length h) by (unfold h3; rewrite app_length, L2; cbn; lia).
  assert (Final : forall kn, length kn = length ns ->
    exists o l1 l2 l3 l4, HOk ({| t_list := nl; t_nc := length cs; t_centers := Some (length h); t_nn := length ns; t_neighs := Some (length h1);
        t_ccounts := Some (length h2); t_ncounts := Some (length h3); t_rcut := nl_rcut nl; t_smooth := smooth |}, h3 ++ [Some (map Some kn)])
      = HOk (o, h ++ four l1 l2 l3 l4) /\ map (fun z : Z => (z, Z.of_nat (atoms_of nl z))) cs <> [] /\
      rep (h ++ four l1 l2 l3 l4) o {| v_list := nl; v_centers := map (fun z => (z, Z.of_nat (atoms_of nl z))) cs; v_neighs := combine ns kn; v_rcut := nl_rcut nl; v_smooth := smooth |}
        [length h; 1 + length h; 2 + length h; 3 + length h]).
  { intros kn Lk. do 5 eexists. split.
    { f_equal. f_equal. unfold h3, h2, h1. rewrite <- !app_assoc. cbn [app]. unfold four. reflexivity. }
    split; [destruct cs; [contradiction|discriminate]|].
    unfold rep. cbn [t_list t_rcut t_smooth t_nc t_nn v_list v_centers v_neighs v_rcut v_smooth].
    repeat (split; [reflexivity|]). split; [now rewrite map_length|]. split; [rewrite combine_length; lia|].
    destruct (map (fun z : Z => (z, Z.of_nat (atoms_of nl z))) cs) as [|p l] eqn:E; [destruct cs; [contradiction|discriminate]|].
    rewrite <- E. split; [destruct ns; [contradiction|]; destruct kn; discriminate|].
    exists (length h), (1 + length h), (2 + length h), (3 + length h). rewrite L1, L2, L3. split; [repeat split|]. split; [reflexivity|].
    split; [apply four_NoDup|]. rewrite !map_map. cbn [fst snd]. rewrite map_id, combine_fst, combine_snd by lia. apply four_blk. }
  destruct counts as [ks|].
  - destruct (Nat.leb_spec (length ns) (length ks)) as [Lk|Lk].
    + assert (Lf : length (firstn (length ns) ks) = length ns) by (rewrite firstn_length; lia).
      pose proof (new_table_ok (fun _ => arg ks) h3 (firstn (length ns) ks)) as T. rewrite Lf in T. rewrite T.
      * cbn [hbind]. now apply Final.
      * intros c k Hk. rewrite (arg_ok _ _ 0%Z) by lia. f_equal. rewrite <- (firstn_skipn (length ns) ks) at 1. rewrite app_nth1; auto; lia.
    + destruct (short_table ns ks h3 Lk) as [e E]. rewrite E. cbn [hbind]. eauto.
  - rewrite (calc_neighs_ok nl h3 (length h1) ns So B2). cbn [hbind]. apply Final. now rewrite map_length.
Qed.

(** Copies. *)
Lemma copy_empty o h : t_nc o = 0 -> t_nn o = 0 ->
  t_copy o h = HOk ({| t_list := t_list o; t_nc := 0; t_centers := Some (length h); t_nn := 0; t_neighs := Some (1 + length h);
    t_ccounts := Some (2 + length h); t_ncounts := Some (3 + length h); t_rcut := t_rcut o; t_smooth := t_smooth o |},
    h ++ [Some [None]; Some [None]; Some []; Some []]).
Proof.
  intros E1 E2. unfold t_copy, new_table, malloc. rewrite E1, E2. cbn [seq hfold hbind repeat]. rewrite !app_length, <- !app_assoc. cbn [app length].
  apply (f_equal HOk). f_equal. f_equal; apply (f_equal Some); lia.
Qed.
Lemma app_app_blk (h : heap) x b vs : blk h b vs -> forall k, k < length vs -> load (h ++ x) (Some b) k = HOk (nth k vs 0%Z).
Proof. intros B k Hk. apply load_blk; auto using blk_app. Qed.
Lemma first_blk (h : heap) x b v : blk h b [v] -> load (h ++ x) (Some b) 0 = HOk v.
Proof. intros B. rewrite (app_app_blk h x b [v] B 0) by (cbn; lia). reflexivity. Qed.
Lemma new_table_one (e : heap -> nat -> hres Z) h v : (forall c, e (h ++ [Some c]) 0 = HOk v) -> new_table 1 1 e h = HOk (Some (length h), h ++ [Some (map Some [v])]).
Proof. intros E. apply (new_table_ok e h [v]). intros c k Hk. cbn [length] in Hk. destruct k; [apply E|lia]. Qed.
Lemma copy_one o v h own p q : rep h o v own -> v_centers v = [p] -> v_neighs v = [q] ->
  exists o' l1 l2 l3 l4, t_copy o h = HOk (o', h ++ four l1 l2 l3 l4) /\
    rep (h ++ four l1 l2 l3 l4) o' v [length h; 1 + length h; 2 + length h; 3 + length h].
Proof.
  intros (H1 & H2 & H3 & H4 & H5 & R) E1 E2. rewrite E1 in *. rewrite E2 in *. destruct R as (N & a & b & c & d & (P1 & P2 & P3 & P4) & -> & D & A & B & C & F).
  cbn [map length] in *. unfold t_copy. rewrite P1, P2, P3, P4, H4, H5.
  rewrite (new_table_one (fun h => load h (Some a)) h (fst p)) by (intros; apply first_blk; assumption). cbn [hbind].
  rewrite (new_table_one (fun h => load h (Some b)) _ (fst q)) by (intros; rewrite <- app_assoc; apply first_blk; assumption). cbn [hbind].
  rewrite (new_table_one (fun h => load h (Some c)) _ (snd p)) by (intros; rewrite <- !app_assoc; apply first_blk; assumption). cbn [hbind].
  rewrite (new_table_one (fun h => load h (Some d)) _ (snd q)) by (intros; rewrite <- !app_assoc; apply first_blk; assumption). cbn [hbind].
  do 5 eexists. split; [rewrite <- !app_assoc; cbn [app]; unfold four; reflexivity|].
  unfold rep. cbn [t_list t_rcut t_smooth t_nc t_nn]. rewrite E1, E2. repeat (split; [assumption||reflexivity|]).
  exists (length h), (1 + length h), (2 + length h), (3 + length h).
  split; [repeat split; cbn [t_neighs t_ccounts t_ncounts]; rewrite ?app_length; cbn [length]; f_equal; lia|]. split; [reflexivity|]. split; [apply four_NoDup|].
  cbn [map]. apply four_blk.
Qed.
Lemma copy_more o v h own : rep h o v own -> v_centers v <> [] -> 2 <= length (v_centers v) \/ 2 <= length (v_neighs v) -> t_copy o h = HErr OutOfBounds.
Proof.
  intros (H1 & H2 & H3 & H4 & H5 & R) Hc L. destruct (v_centers v) as [|p l] eqn:E; [contradiction|]. rewrite <- E in *.
  destruct R as (N & a & b & c & d & (P1 & P2 & P3 & P4) & -> & D & A & B & C & F).
  unfold t_copy. rewrite P1, P2, P3, P4, H4, H5.
  destruct (Nat.le_gt_cases 2 (length (v_centers v))) as [L1|L1].
  - rewrite <- (map_length fst (v_centers v)) at 1. rewrite (new_table_room (fun h => load h (Some a))); [reflexivity|now rewrite map_length|].
    intros; eapply app_app_blk; eauto.
  - assert (L2 : length (v_centers v) = 1) by (rewrite E in *; cbn [length] in *; lia).
    pose proof (new_table_ok (fun h => load h (Some a)) h (map fst (v_centers v))) as T. rewrite map_length, L2 in T. rewrite L2, T.
    2: { intros; eapply app_app_blk; eauto. rewrite map_length; lia. }
    cbn [hbind]. rewrite <- (map_length fst (v_neighs v)) at 1. rewrite (new_table_room (fun h => load h (Some b))); [reflexivity|rewrite map_length; lia|].
    intros; rewrite <- app_assoc; eapply app_app_blk; eauto.
Qed.

(** The second part of the assignment. *)
Lemma take_full this o v h own : rep h o v own -> v_centers v <> [] ->
  exists o' l1 l2 l3 l4, t_take this o h = HOk (o', h ++ four l1 l2 l3 l4) /\
    rep (h ++ four l1 l2 l3 l4) o' v [length h; 2 + length h; 1 + length h; 3 + length h].
Proof.
  intros (H1 & H2 & H3 & H4 & H5 & R) Hc. destruct (v_centers v) as [|p l] eqn:E; [contradiction|]. rewrite <- E in *. assert (Hl : length (v_centers v) <> 0) by (rewrite E; discriminate).
  destruct R as (N & a & b & c & d & (P1 & P2 & P3 & P4) & -> & D & A & B & C & F). assert (Hn : length (v_neighs v) <> 0) by (destruct (v_neighs v); [contradiction|discriminate]).
  unfold t_take. rewrite P1, P2, P3, P4, H4, H5. destruct (Nat.eqb_spec (length (v_centers v)) 0); [contradiction|]. destruct (Nat.eqb_spec (length (v_neighs v)) 0); [contradiction|].
  pose proof (two_tables_ok (fun h => load h (Some a)) (fun h => load h (Some c)) h (map fst (v_centers v)) (map snd (v_centers v))) as T1.
  rewrite !map_length in T1. rewrite T1; [|reflexivity|intros; eapply app_app_blk; eauto; now rewrite map_length|intros; eapply app_app_blk; eauto; now rewrite map_length].
  cbn [hbind]. set (h1 := h ++ _).
  pose proof (two_tables_ok (fun h => load h (Some b)) (fun h => load h (Some d)) h1 (map fst (v_neighs v)) (map snd (v_neighs v))) as T2.
  rewrite !map_length in T2. rewrite T2; [|reflexivity|intros; unfold h1; rewrite <- app_assoc; eapply app_app_blk; eauto; now rewrite map_length|intros; unfold h1; rewrite <- app_assoc; eapply app_app_blk; eauto; now rewrite map_length].
  cbn [hbind]. do 5 eexists. split; [unfold h1; rewrite <- !app_assoc; cbn [app]; unfold four; reflexivity|].
  unfold rep. cbn [t_list t_rcut t_smooth t_nc t_nn]. repeat (split; [assumption||reflexivity|]). rewrite E. rewrite <- E. split; [exact N|].
  exists (length h), (2 + length h), (1 + length h), (3 + length h). unfold h1.
  split; [repeat split; cbn [t_neighs t_ccounts t_ncounts]; rewrite ?app_length; cbn [length]; f_equal; lia|]. split; [reflexivity|]. split.
  { repeat constructor; cbn; intros X; decompose [or] X; try lia; try contradiction. }
  pose proof (four_blk h (map fst (v_centers v)) (map snd (v_centers v)) (map fst (v_neighs v)) (map snd (v_neighs v))) as (Q1 & Q2 & Q3 & Q4). auto.
Qed.
Lemma take_empty this o h : t_nc o = 0 -> t_nn o = 0 ->
  t_take this o h = HOk ({| t_list := t_list o; t_nc := 0; t_centers := t_centers this; t_nn := 0; t_neighs := t_neighs this;
    t_ccounts := t_ccounts this; t_ncounts := t_ncounts this; t_rcut := t_rcut o; t_smooth := t_smooth o |}, h).
Proof. intros E1 E2. unfold t_take. rewrite E1, E2. reflexivity. Qed.

(** Releases. *)
Lemma free_four h a b c d ca cb cc cd : NoDup [a; b; c; d] -> nth_error h a = Some (Some ca) -> nth_error h b = Some (Some cb) -> nth_error h c = Some (Some cc) -> nth_error h d = Some (Some cd) ->
  exists h', hbind (hfree h (Some a)) (fun h => hbind (hfree h (Some b)) (fun h => hbind (hfree h (Some c)) (fun h => hfree h (Some d)))) = HOk h' /\
    length h' = length h /\ (forall x, ~ In x [a; b; c; d] -> nth_error h' x = nth_error h x) /\ 4 + blocks_in_use h' = blocks_in_use h.
Proof.
  intros N A B C D. inversion N as [|? ? Na N1]; subst. inversion N1 as [|? ? Nb N2]; subst. inversion N2 as [|? ? Nc N3]; subst. cbn [In] in *.
  destruct (free_blk h a ca A) as (h1 & E1 & L1 & F1 & U1). rewrite E1. cbn [hbind].
  destruct (free_blk h1 b cb) as (h2 & E2 & L2 & F2 & U2); [rewrite F1 by tauto; exact B|]. rewrite E2. cbn [hbind].
  destruct (free_blk h2 c cc) as (h3 & E3 & L3 & F3 & U3); [rewrite F2, F1 by tauto; exact C|]. rewrite E3. cbn [hbind].
  destruct (free_blk h3 d cd) as (h4 & E4 & L4 & F4 & U4); [rewrite F3, F2, F1 by tauto; exact D|]. exists h4. split; [exact E4|].
  split; [lia|]. split; [|lia]. intros x Hx. rewrite F4, F3, F2, F1; auto; intros ->; apply Hx; cbn; tauto.
Qed.
Definition released (h h' : heap) (own : list nat) : Prop :=
  length h' = length h /\ (forall x, ~ In x own -> nth_error h' x = nth_error h x) /\ length own + blocks_in_use h' = blocks_in_use h.
Lemma destroy_ok h o v own : rep h o v own -> exists h', t_destroy o h = HOk h' /\ released h h' own.
Proof.
  intros (_ & _ & _ & H4 & H5 & R). unfold t_destroy, released. destruct (v_centers v) as [|p l] eqn:E.
  - destruct R as [En ->]. rewrite En in H5. cbn [length] in *. rewrite H4, H5. exists h. repeat split; reflexivity.
  - destruct R as (N & a & b & c & d & (P1 & P2 & P3 & P4) & -> & D & A & B & C & F). rewrite H4, H5, P1, P2, P3, P4.
    cbn [length Nat.eqb]. destruct (v_neighs v) as [|q m] eqn:En; [contradiction|]. cbn [length Nat.eqb].
    assert (D' : NoDup [a; c; b; d]).
    { inversion D as [|? ? Na N1]; subst. inversion N1 as [|? ? Nb N2]; subst. inversion N2 as [|? ? Nc N3]; subst. cbn [In] in *.
      repeat constructor; cbn [In]; intuition. }
    destruct (free_four h a c b d _ _ _ _ D' A C B F) as (h' & E' & L' & F' & U'). exists h'. split.
    + rewrite <- E'. destruct (hfree h (Some a)) as [h1|e]; cbn [hbind]; [|reflexivity]. destruct (hfree h1 (Some c)) as [h2|e]; cbn [hbind]; reflexivity.
    + split; [exact L'|]. split; [|exact U']. intros x Hx. apply F'. cbn [In] in *. tauto.
Qed.
Lemma clear_ok h o v own : rep h o v own -> exists o' h', t_clear o h = HOk (o', h') /\ released h h' own /\ t_nc o' = 0 /\ t_nn o' = 0 /\
  t_list o' = v_list v /\ t_rcut o' = v_rcut v /\ t_smooth o' = v_smooth v.
Proof.
  intros (H1 & H2 & H3 & H4 & H5 & R). unfold t_clear. destruct (v_centers v) as [|p l] eqn:E.
  - destruct R as [En ->]. rewrite En in H5. cbn [length] in *. rewrite H4. exists o, h. repeat split; auto.
  - destruct R as (N & a & b & c & d & (P1 & P2 & P3 & P4) & -> & D & A & B & C & F). rewrite H4, P1, P2, P3, P4. cbn [length Nat.eqb].
    assert (D' : NoDup [a; c; b; d]).
    { inversion D as [|? ? Na N1]; subst. inversion N1 as [|? ? Nb N2]; subst. inversion N2 as [|? ? Nc N3]; subst. cbn [In] in *.
      repeat constructor; cbn [In]; intuition. }
    destruct (free_four h a c b d _ _ _ _ D' A C B F) as (h' & E' & L' & F' & U'). do 2 eexists. split.
    + destruct (hfree h (Some a)) as [h1|e]; cbn [hbind] in *; [|discriminate E']. destruct (hfree h1 (Some c)) as [h2|e]; cbn [hbind] in *; [|discriminate E'].
      destruct (hfree h2 (Some b)) as [h3|e]; cbn [hbind] in *; [|discriminate E']. rewrite E'. reflexivity.
    + split; [|cbn; auto]. split; [exact L'|]. split; [|exact U']. intros x Hx. apply F'. cbn [In] in *. tauto.
Qed.
