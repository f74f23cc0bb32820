(** Proofs about the memory of neighbour lists: construction of the whole list. *)
From Coq Require Import Permutation.
From Verif Require Import NestModel NestSpec NestProofs LifeModel LifeSpec LifeProofs LifeInv LifeMake LifeEnlarge LifeSteps OwnModel OwnSep OwnParts OwnVec OwnObj OwnBuild OwnSpec.
Local Open Scope nat_scope.
Local Open Scope list_scope.

(** Memory nothing points to. *)
Definition lost (l : list Z) : asn := fun h own => exists p, arr p l h own.
Definition lost_rows : asn := fun h own => exists p, jag p [] 0 h own.
Lemma lost_stable l : stable (lost l).
Proof.
  intros h own (p & A). destruct (arr_stable p l h own A) as (Al & N & F). split; [exact Al|]. split; [exact N|]. intros h' Ag. exists p. auto.
Qed.
Lemma lost_rows_stable : stable lost_rows.
Proof.
  intros h own (p & A). destruct (jag_stable p [] 0 h own A) as (Al & N & F). split; [exact Al|]. split; [exact N|]. intros h' Ag. exists p. auto.
Qed.
Lemma lost_sized l : sized (lost l) 1.
Proof. intros h own (p & A). exact (arr_sized _ _ _ _ A). Qed.
Lemma lost_rows_sized : sized lost_rows 1.
Proof. intros h own (p & A). exact (jag_sized _ _ _ _ _ A). Qed.
Lemma Forall2_mono {A B} (P Q : A -> B -> Prop) l l' : (forall a b, P a b -> Q a b) -> Forall2 P l l' -> Forall2 Q l l'.
Proof. intros H. induction 1; constructor; auto. Qed.
Lemma sep_weaken (l l' : list asn) h own : Forall2 (fun A B : asn => forall o, A h o -> B h o) l l' -> sep l h own -> sep l' h own.
Proof.
  intros F (owns & Fo & P & N). exists owns. split; [|auto]. clear P N. revert owns Fo. induction F as [|A B l l' Hab F IH]; intros owns Fo; inversion Fo; subst; constructor; auto.
Qed.

Section Numbers.
Variable lengths_of : printed -> list Z * list Z.
Variable extending : printed -> Z -> nat * nat * nat.
Variable bins_of : printed -> list Z -> nat * nat * nat.
Variable min_of : printed -> list Z.
Variable bin_of : bin_info -> list Z -> Z.
Variable found : bin_view -> nat -> list Z.
Variable arranged : bin_view -> nat -> list Z -> list Z.

Definition factors (v : value) (rcut : Z) (per : bool * bool * bool) : nat * nat * nat :=
  let '(e0, e1, e2) := extending (print_of v) rcut in let '(p0, p1, p2) := per in (scale p0 e0, scale p1 e1, scale p2 e2).
Lemma factors_positive v rcut per : positive (factors v rcut per).
Proof.
  unfold factors, positive. destruct (extending (print_of v) rcut) as [[e0 e1] e2], per as [[p0 p1] p2]. unfold scale. destruct p0, p1, p2; lia.
Qed.
Definition bins_content (rcut : Z) (size : list Z) (per : bool * bool * bool) (v : value) : bl_content :=
  let c := cell_content lengths_of (factors v rcut per) v in
  let big := fst (fst c) in
  let info := {| bin_size := size; pbc := per; num_bin := bins_of (print_of big) size; min_limit := min_of (print_of big) |} in
  let bs := map (bin_of info) (coords big) in
  {| k_cell := c; k_rcut := rcut; k_bins := info; k_heads := heads_of bs (scaling3 (num_bin info)); k_nexts := nexts_of bs |}.
Definition bins_fine (k : bl_content) : bool := forallb (in_range (scaling3 (num_bin (k_bins k)))) (map (bin_of (k_bins k)) (coords (k_value k))).

Lemma sc_two sc c : sc_asn sc (Some c) = [stru (sc_structure sc) (fst (fst c)); arr (sc_owned sc) (snd c)].
Proof. destruct c as [[v i] l]. reflexivity. Qed.
Lemma construct_bin_list_both rcut size per st v : let k := bins_content rcut size per v in
  both (bins_fine k) (construct_bin_list lengths_of extending bins_of min_of bin_of rcut size per st) [stru st v] (fun b => bl_pre b k)
    (fun b => stru st v :: bl_asn b (Some k)).
Proof.
  intros k h own S0. destruct (sep_fact S0 st v) as ((_ & _ & G & _) & En); [now left|]. unfold construct_bin_list. rewrite En.
  destruct (Nat.eqb_spec (length (coords v)) 0); [lia|]. pose proof (now_start _ _ _ S0) as N0.
  rewrite (shown_reads st v h own S0). cbn [hbind]. pose proof (factors_positive v rcut per) as Hpos. pose proof (eq_refl (factors v rcut per)) as Ef. unfold factors at 2 in Ef.
  destruct (extending (print_of v) rcut) as [[e0 e1] e2], per as [[p0 p1] p2]. set (per := (p0, p1, p2)) in *. rewrite <- Ef. clear Ef.
  set (s := factors v rcut per) in *. set (c := cell_content lengths_of s v). assert (k_cell k = c) as Ec by reflexivity.
  set (big := fst (fst c)). assert (k_value k = big) as Eb by reflexivity.
  set (info := {| bin_size := size; pbc := per; num_bin := bins_of (print_of big) size; min_limit := min_of (print_of big) |}). assert (k_bins k = info) as Ei by reflexivity.
  set (op := scratch [3] (scratch [3] (scratch [3] _))).
  assert (both (bins_fine k) op [stru st v] (fun a => sc_ok (fst a) (Some c) /\ bl_pre (snd a) k) (fun a => stru st v :: sc_asn (fst a) (Some c) ++ bl_asn (snd a) (Some k))) as Hop.
  { assert (forall a : supercell * bin_list, Forall stable (stru st v :: sc_asn (fst a) (Some c) ++ bl_asn (snd a) (Some k))) as SQ.
    { intros a. apply Forall_cons; [apply stru_stable|]. apply Forall_app. split; [apply sc_stable|apply bl_stable]. }
    apply scratch_both; [discriminate|stab|exact SQ|]. apply scratch_both; [discriminate|stab|exact SQ|]. apply scratch_both; [discriminate|stab|exact SQ|].
    clear h own S0 N0. intros h own S0. pose proof (now_start _ _ _ S0) as N0.
    destruct (now_spec _ [stru st v] _ _ [] _ _ _ _ ltac:(stab) ltac:(stab)
      (by_value_spec st v (construct_supercell lengths_of s) (fun a => sc_ok a (Some c)) (fun a => sc_asn a (Some c)) ltac:(intros; apply sc_stable) (fun p => construct_supercell_spec lengths_of s p v Hpos)) N0 ltac:(perm))
      as (local & h1 & -> & Hl & N1). cbn [hbind] in *. rewrite app_nil_r in N1.
    destruct (now_spec _ (sc_asn no_supercell None ++ sc_asn local (Some c)) _ _ [stru st v] _ _ _ _ ltac:(apply Forall_app; split; apply sc_stable) ltac:(stab)
      (assign_supercell_spec no_supercell None local (Some c) (conj eq_refl eq_refl) Hl) N1 ltac:(apply Permutation_sym, Permutation_cons_append)) as (sc & h2 & -> & Hsc & N2). cbn [hbind] in *.
    rewrite (sc_two sc), (sc_two local) in N2. cbn [app] in N2. fold big in N2.
    set (P := [stru (sc_structure sc) big; arr (sc_owned sc) (snd c); stru (sc_structure local) big; arr (sc_owned local) (snd c); stru st v]) in *.
    set (Q := fun a : supercell * bin_list => stru st v :: sc_asn (fst a) (Some c) ++ bl_asn (snd a) (Some k)) in *.
    assert (forall op' : heap -> hres (supercell * bin_list * heap),
      both (bins_fine k) op' P (fun a => sc_ok (fst a) (Some c) /\ bl_pre (snd a) k) Q -> if bins_fine k then exists a h' new, op' h2 = HOk (a, h') /\ (sc_ok (fst a) (Some c) /\ bl_pre (snd a) k) /\ changes h h' own new /\ sep (Q a) h' new
        else exists e, op' h2 = HErr e) as Fin.
    { intros op' Hop. pose proof (now_both (bins_fine k) op' P _ Q [] _ _ _ _ ltac:(unfold P; stab) ltac:(stab) Hop N2 ltac:(rewrite app_nil_r; apply Permutation_refl)) as H.
      destruct (bins_fine k); [|exact H]. destruct H as (a & h' & E & Hp & N). rewrite app_nil_r in N. destruct N as (new & C & S1). eauto 10. }
    apply Fin. clear Fin. assert (Forall stable P) as SP by (unfold P; stab).
    apply scratch_both; [discriminate|exact SP|exact SQ|]. clear h own S0 N0 N1 N2 h1 h2. intros h own S0.
    pose proof (now_start _ _ _ S0) as N0.
    rewrite (now_reads _ [stru (sc_structure local) big] [stru (sc_structure sc) big; arr (sc_owned sc) (snd c); arr (sc_owned local) (snd c); stru st v] _ _ _ _ _ (shown_reads _ big) N0 ltac:(unfold P; perm)).
    cbn [hbind]. clear N0. revert h own S0. apply scratch_both; [discriminate|exact SP|exact SQ|]. intros h own S0. pose proof (now_start _ _ _ S0) as N0.
    rewrite (now_reads _ [stru (sc_structure sc) big] [arr (sc_owned sc) (snd c); stru (sc_structure local) big; arr (sc_owned local) (snd c); stru st v] _ _ _ _ _ (shown_reads _ big) N0 ltac:(unfold P; perm)).
    cbn [hbind]. fold info.
    pose proof (now_both _ _ [stru (sc_structure sc) big] _ _ [arr (sc_owned sc) (snd c); stru (sc_structure local) big; arr (sc_owned local) (snd c); stru st v] _ _ _ _ ltac:(stab) ltac:(stab)
      (build_bins_both bin_of info (sc_structure sc) big) N0 ltac:(unfold P; perm)) as H.
    change (forallb (in_range (scaling3 (num_bin info))) (map (bin_of info) (coords big))) with (bins_fine k) in H. destruct (bins_fine k).
    - destruct H as ((heads & nexts) & h1 & -> & _ & N1). cbn [hbind fst snd app] in *.
      match goal with |- exists a _ _, HOk (?x, _) = _ /\ _ => assert (now h own (Q x) h1) as N2 end.
      { unfold Q. cbn [fst snd]. rewrite sc_two. unfold bl_asn. cbn [bl_supercell bl_heads bl_nexts app]. eapply now_perm; [exact N1|]. apply Permutation_sym. fold big. perm. }
      destruct N2 as (new & C & S1). eexists _, h1, new. split; [reflexivity|]. cbn [fst snd]. split; [|split; [exact C|exact S1]]. split; [exact Hl|].
      split; [exact Hsc|]. split; [reflexivity|]. split; [reflexivity|]. unfold k, bins_content. cbn [k_heads k_nexts k_bins]. split.
      + unfold heads_of. now rewrite map_length, seq_length.
      + unfold nexts_of. rewrite map_length, seq_length. now rewrite map_length.
    - destruct H as (e & ->). now exists e. }
  pose proof (now_both _ op [stru st v] _ _ [] _ _ _ _ ltac:(stab) ltac:(stab) Hop N0 ltac:(perm)) as H. destruct (bins_fine k); [|destruct H as (e & ->); now exists e].
  destruct H as ((local & b) & h1 & -> & (Hl & Hb) & N1). cbn [hbind fst snd] in *. rewrite app_nil_r in N1.
  destruct (now_act _ (sc_asn local (Some c)) [] (stru st v :: bl_asn b (Some k)) _ _ _ _ ltac:(apply sc_stable) ltac:(apply Forall_cons; [apply stru_stable|apply bl_stable]) (destroy_supercell_act local _ Hl) N1
    ltac:(apply Permutation_sym, Permutation_middle)) as (h2 & -> & N2). cbn [hbind app] in *. destruct N2 as (new & C & S2). exists b, h2, new. auto.
Qed.

(** ** The lists of neighbours *)
Definition rows_of (w : bin_view) (n : nat) (sort : bool) : list (list Z) := map (fun i => if sort then arranged w i (found w i) else found w i) (seq 0 n).
Definition rows_part (w : bin_view) (n i : nat) : list (list Z) := map (fun j => if j <? i then arranged w j (found w j) else found w j) (seq 0 n).
Lemma put_unit b rows row (row' : list Z) i : i < length rows ->
  spec (scratch [length row'] (scratch [length row'] (fun h => hbind (vec_put h b i row) (fun h => HOk (tt, h))))) [jag (Some b) rows 0] (fun _ => True) (fun _ => [jag (Some b) (replace rows i row) 0]).
Proof.
  intros Hi. apply scratch_spec; [discriminate|stab|intros; stab|]. apply scratch_spec; [discriminate|stab|intros; stab|]. intros h own S0.
  destruct (vec_put_again b rows row i Hi h own S0) as (h' & new & E & C & S1). rewrite E. cbn [hbind]. exists tt, h', new. auto.
Qed.
Lemma build_lists_act b k n sort lists : bl_pre b k ->
  act (build_lists found arranged b n sort lists) (jag (Some lists) [] n :: bl_asn b (Some k)) (jag (Some lists) (rows_of (view_of k) n sort) 0 :: bl_asn b (Some k)).
Proof.
  intros Hb h own S0. pose proof (now_start _ _ _ S0) as N0. unfold build_lists. set (w := view_of k).
  destruct (hfold_inv (fun h ii => hbind (read_bin_list b h) (fun w => vec_put h lists ii (found w ii)))
    (fun i s => now h own (jag (Some lists) (map (found w) (seq 0 i)) (n - i) :: bl_asn b (Some k)) s) n h) as (s & -> & Ns).
  - now rewrite Nat.sub_0_r.
  - intros i s Hi Ns.
    rewrite (now_reads _ (bl_asn b (Some k)) [jag (Some lists) (map (found w) (seq 0 i)) (n - i)] _ _ _ _ _ (read_bin_list_reads b k Hb) Ns) by (apply Permutation_sym, Permutation_cons_append). cbn [hbind]. fold w.
    replace (n - i) with (Datatypes.S (n - Datatypes.S i)) in Ns by lia.
    assert (i = length (map (found w) (seq 0 i))) as Hl by (now rewrite map_length, seq_length).
    destruct (now_act _ [jag (Some lists) (map (found w) (seq 0 i)) (Datatypes.S (n - Datatypes.S i))] _ (bl_asn b (Some k)) _ _ _ _ ltac:(stab) ltac:(apply bl_stable)
      (vec_put_next lists _ _ (found w i) i Hl) Ns (Permutation_refl _)) as (s' & -> & Ns'). cbn [app] in Ns'. exists s'. split; [reflexivity|].
    rewrite seq_S, map_app. exact Ns'.
  - cbn [hbind]. rewrite Nat.sub_diag in Ns. destruct sort.
    + destruct (hfold_inv (fun h ii => hbind (read_bin_list b h) (fun w => hbind (vec_get h lists ii) (fun row =>
        hbind (scratch [length row] (scratch [length row] (fun h => hbind (vec_put h lists ii (arranged w ii row)) (fun h => HOk (tt, h)))) h) (fun '(_, h) => HOk h))))
        (fun i s => now h own (jag (Some lists) (rows_part w n i) 0 :: bl_asn b (Some k)) s) n s) as (s2 & -> & Ns2).
      * assert (rows_part w n 0 = map (found w) (seq 0 n)) as -> by (apply map_ext; reflexivity). exact Ns.
      * clear s Ns. intros i s Hi Ns.
        rewrite (now_reads _ (bl_asn b (Some k)) [jag (Some lists) (rows_part w n i) 0] _ _ _ _ _ (read_bin_list_reads b k Hb) Ns) by (apply Permutation_sym, Permutation_cons_append). cbn [hbind]. fold w.
        assert (nth_error (rows_part w n i) i = Some (found w i)) as Hrow by (unfold rows_part; rewrite nth_map_seq by lia; now rewrite Nat.ltb_irrefl).
        rewrite (now_reads _ [jag (Some lists) (rows_part w n i) 0] (bl_asn b (Some k)) _ _ _ _ _ (vec_get_reads lists _ 0 i _ Hrow) Ns (Permutation_refl _)). cbn [hbind].
        assert (i < length (rows_part w n i)) as Hl by (unfold rows_part; rewrite map_length, seq_length; lia).
        destruct (now_spec _ [jag (Some lists) (rows_part w n i) 0] _ _ (bl_asn b (Some k)) _ _ _ _ ltac:(stab) ltac:(apply bl_stable)
          (put_unit lists _ (arranged w i (found w i)) (found w i) i Hl) Ns (Permutation_refl _)) as (u & s' & -> & _ & Ns'). cbn [hbind app] in *. exists s'. split; [reflexivity|].
        assert (replace (rows_part w n i) i (arranged w i (found w i)) = rows_part w n (Datatypes.S i)) as <-; [|exact Ns'].
        unfold rows_part. apply replace_map_seq; [lia| |].
        -- destruct (Nat.ltb_spec i (Datatypes.S i)); [reflexivity|lia].
        -- intros j Hj _. destruct (Nat.ltb_spec j (Datatypes.S i)), (Nat.ltb_spec j i); auto; lia.
      * destruct Ns2 as (new & C & S2). exists s2, new. split; [reflexivity|]. split; [exact C|].
        assert (rows_part w n n = rows_of w n true) as <-; [|exact S2]. unfold rows_part, rows_of. apply map_ext_in. intros j Hj. apply in_seq in Hj.
        destruct (Nat.ltb_spec j n); [reflexivity|lia].
    + destruct Ns as (new & C & S2). exists s, new. split; [reflexivity|]. split; [exact C|]. exact S2.
Qed.

Lemma construct_nblist_both rcut size per sort st v : let k := bins_content rcut size per v in let rows := rows_of (view_of k) (length (coords v)) sort in rcut <> 0%Z ->
  both (bins_fine k) (construct_nblist lengths_of extending bins_of min_of bin_of found arranged rcut size per sort st) [stru st v] (fun x => nl_ok x (Some (k, rows)))
    (fun x => stru st v :: nl_asn x (Some (k, rows))).
Proof.
  intros k rows Hr h own S0. destruct (sep_fact S0 st v) as ((_ & _ & G & _) & En); [now left|]. unfold construct_nblist. rewrite En.
  destruct (Nat.eqb_spec (length (coords v)) 0) as [|Hn]; [lia|]. pose proof (now_start _ _ _ S0) as N0.
  pose proof (now_both _ _ [stru st v] _ _ [] _ _ _ _ ltac:(stab) ltac:(stab)
    (by_value_both (bins_fine k) st v (construct_bin_list lengths_of extending bins_of min_of bin_of rcut size per) (fun b => bl_pre b k) (fun b => bl_asn b (Some k)) ltac:(intros; apply bl_stable)
      (fun p => construct_bin_list_both rcut size per p v)) N0 ltac:(perm)) as H.
  destruct (bins_fine k); [|destruct H as (e & ->); now exists e]. destruct H as (tmp & h1 & -> & Hpre & N1). cbn [hbind] in *. rewrite app_nil_r in N1.
  assert (bl_ok tmp (Some k)) as Ht by (split; [exact Hr|exact Hpre]).
  destruct (now_spec _ (bl_asn no_bin_list None ++ bl_asn tmp (Some k)) _ _ [stru st v] _ _ _ _ ltac:(apply Forall_app; split; apply bl_stable) ltac:(stab)
    (assign_bin_list_spec no_bin_list None tmp (Some k) (conj eq_refl (conj eq_refl eq_refl)) Ht) N1 ltac:(apply Permutation_sym, Permutation_cons_append)) as (b & h2 & -> & Hb & N2). cbn [hbind] in *.
  destruct (now_act _ (bl_asn tmp (Some k)) [] (bl_asn b (Some k) ++ [stru st v]) _ _ _ _ ltac:(apply bl_stable) ltac:(apply Forall_app; split; [apply bl_stable|stab])
    (destroy_bin_list_act tmp _ Ht) N2 ltac:(rewrite !app_assoc; apply Permutation_app_tail, Permutation_app_comm)) as (h3 & -> & N3). cbn [hbind app] in *.
  destruct Hb as (_ & Hb). assert (prim (sc_info (bl_supercell b)) = length (coords v)) as ->.
  { destruct Hb as (Hc & _). unfold k, bins_content in Hc. cbn [k_cell] in Hc. unfold cell_content in Hc. destruct (factors v rcut per) as [[s0 s1] s2]. destruct Hc as (_ & -> & _). reflexivity. }
  destruct (now_spec _ [] _ _ (bl_asn b (Some k) ++ [stru st v]) _ _ _ _ ltac:(stab) ltac:(apply Forall_app; split; [apply bl_stable|stab]) (vec_new_spec (length (coords v))) N3 (Permutation_refl _)) as (lists & h4 & E4 & _ & N4).
  assert (vec_new (length (coords v)) h3 = (lists, h4)) as -> by congruence. clear E4. cbn [app] in N4.
  destruct (now_act _ (jag (Some lists) [] (length (coords v)) :: bl_asn b (Some k)) _ [stru st v] _ _ _ _ ltac:(apply Forall_cons; [apply jag_stable|apply bl_stable]) ltac:(stab)
    (build_lists_act b k (length (coords v)) sort lists Hb) N4 (Permutation_refl _)) as (h5 & -> & N5). cbn [hbind].
  match goal with |- exists a _ _, HOk (?x, _) = _ /\ _ => assert (now h own (stru st v :: nl_asn x (Some (k, rows))) h5) as N6 end.
  { eapply now_perm; [exact N5|]. cbn [nl_asn nl_lists nl_bins]. apply Permutation_sym, Permutation_cons_append. }
  destruct N6 as (new & C & S6). eexists _, h5, new. split; [reflexivity|]. split; [|split; [exact C|exact S6]]. cbn [nl_ok nl_num nl_rcut nl_bins].
  split; [unfold rows, rows_of; now rewrite map_length, seq_length|]. split; [exact Hn|]. split; [reflexivity|]. split; [exact Hr|exact Hb].
Qed.
(** With cutoff 0 the result is empty and three blocks are lost. *)
Lemma construct_nblist_zero size per sort st v : let k := bins_content 0 size per v in
  both (bins_fine k) (construct_nblist lengths_of extending bins_of min_of bin_of found arranged 0 size per sort st) [stru st v] (fun x => nl_ok x None)
    (fun x => [stru st v; lost (k_heads k); lost (k_nexts k); lost_rows]).
Proof.
  intros k h own S0. destruct (sep_fact S0 st v) as ((_ & _ & G & _) & En); [now left|]. unfold construct_nblist. rewrite En.
  destruct (Nat.eqb_spec (length (coords v)) 0) as [|Hn]; [lia|]. pose proof (now_start _ _ _ S0) as N0.
  pose proof (now_both _ _ [stru st v] _ _ [] _ _ _ _ ltac:(stab) ltac:(stab)
    (by_value_both (bins_fine k) st v (construct_bin_list lengths_of extending bins_of min_of bin_of 0 size per) (fun b => bl_pre b k) (fun b => bl_asn b (Some k)) ltac:(intros; apply bl_stable)
      (fun p => construct_bin_list_both 0 size per p v)) N0 ltac:(perm)) as H.
  destruct (bins_fine k); [|destruct H as (e & ->); now exists e]. destruct H as (tmp & h1 & -> & Hpre & N1). cbn [hbind] in *. rewrite app_nil_r in N1.
  destruct Hpre as (Hc & Er & _). change (k_rcut k) with 0%Z in Er. unfold assign_bin_list. rewrite Er. cbn [no_bin_list bl_rcut Z.eqb hbind bl_supercell].
  unfold assign_supercell. cbn [no_supercell sc_num Nat.eqb hbind sc_structure]. unfold assign_structure. cbn [no_structure o_n Nat.eqb hbind with_n].
  unfold destroy_bin_list. rewrite Er. cbn [Z.eqb hbind]. cbn [bl_asn] in N1.
  destruct (now_act _ (sc_asn (bl_supercell tmp) (Some (k_cell k))) [] [stru st v; arr (bl_heads tmp) (k_heads k); arr (bl_nexts tmp) (k_nexts k)] _ _ _ _ ltac:(apply sc_stable) ltac:(stab)
    (destroy_supercell_act (bl_supercell tmp) _ Hc) N1 ltac:(rewrite bl_split; perm)) as (h2 & -> & N2). cbn [hbind app bl_supercell sc_info no_info prim] in *.
  destruct (now_spec _ [] _ _ [stru st v; arr (bl_heads tmp) (k_heads k); arr (bl_nexts tmp) (k_nexts k)] _ _ _ _ ltac:(stab) ltac:(stab) (vec_new_spec 0) N2 (Permutation_refl _)) as (lists & h3 & E3 & _ & N3).
  assert (vec_new 0 h2 = (lists, h3)) as -> by congruence. clear E3. cbn [app] in N3.
  assert (forall b, build_lists found arranged b 0 sort lists h3 = HOk h3) as -> by (intros b; unfold build_lists; cbn [seq hfold hbind]; now destruct sort). cbn [hbind].
  assert (now h own [stru st v; lost (k_heads k); lost (k_nexts k); lost_rows] h3) as N4.
  { apply now_perm with (l' := [stru st v; arr (bl_heads tmp) (k_heads k); arr (bl_nexts tmp) (k_nexts k); jag (Some lists) [] 0]) in N3; [|apply Permutation_sym; perm].
    destruct N3 as (new & C & S3). exists new. split; [exact C|]. eapply sep_weaken; [|exact S3]. apply Forall2_cons; [auto|]. do 3 (apply Forall2_cons; [intros o A; eexists; exact A|]). apply Forall2_nil. }
  destruct N4 as (new & C & S4). eexists _, h3, new. split; [reflexivity|]. split; [cbn; auto|]. auto.
Qed.
End Numbers.
