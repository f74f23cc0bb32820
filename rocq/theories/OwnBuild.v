(** Proofs about the memory of neighbour lists: constructions. *)
From Coq Require Import Permutation.
From Verif Require Import NestModel NestSpec NestProofs LifeModel LifeSpec LifeProofs LifeInv LifeMake LifeEnlarge LifeSteps OwnModel OwnSep OwnParts OwnVec OwnObj OwnSpec.
Local Open Scope nat_scope.
Local Open Scope list_scope.

(** ** Operations that succeed or fail *)
Definition both {B} (ok : bool) (op : heap -> hres (B * heap)) (P : list asn) (phi : B -> Prop) (Q : B -> list asn) : Prop :=
  forall h own, sep P h own -> if ok then exists a h' new, op h = HOk (a, h') /\ phi a /\ changes h h' own new /\ sep (Q a) h' new else exists e, op h = HErr e.
Lemma both_spec {B} (op : heap -> hres (B * heap)) P phi Q : spec op P phi Q -> both true op P phi Q.
Proof. auto. Qed.
Lemma now_both {B} ok (op : heap -> hres (B * heap)) P phi Q R h0 own0 l h : Forall stable P -> Forall stable R -> both ok op P phi Q ->
  now h0 own0 l h -> Permutation (P ++ R) l -> if ok then exists a h', op h = HOk (a, h') /\ phi a /\ now h0 own0 (Q a ++ R) h' else exists e, op h = HErr e.
Proof.
  intros SP SR Hb N Pm. destruct ok; [exact (now_spec op P phi Q R h0 own0 l h SP SR Hb N Pm)|].
  destruct N as (own & C & S0). apply (sep_perm _ _ _ _ (Permutation_sym Pm)) in S0. destruct (sep_app _ _ _ _ S0) as (o1 & o2 & S1 & S2 & Po & N). exact (Hb h o1 S1).
Qed.
Lemma scratch_both {B} ok dims (k : heap -> hres (B * heap)) P phi Q : dims <> [] -> Forall stable P -> (forall a, Forall stable (Q a)) -> both ok k P phi Q ->
  both ok (scratch dims k) P phi Q.
Proof.
  intros Hd SP SQ Hk. destruct ok; [exact (scratch_spec dims k P phi Q Hd SP SQ Hk)|]. intros h own S0. unfold scratch. pose proof (now_start _ _ _ S0) as N0.
  destruct (now_spec _ [] _ _ P _ _ _ _ ltac:(constructor) SP (allocate_spec dims Hd) N0 (Permutation_refl _)) as (b & h1 & -> & _ & N1). cbn [hbind app] in *.
  destruct (now_both false k P phi Q [work dims b] _ _ _ _ SP ltac:(stab) Hk N1) as (e & ->); [apply Permutation_sym, Permutation_cons_append|]. now exists e.
Qed.
Lemma by_value_both {B} ok st v (k : obj -> heap -> hres (B * heap)) phi Q : (forall a, Forall stable (Q a)) ->
  (forall p, both ok (k p) [stru p v] phi (fun a => stru p v :: Q a)) -> both ok (by_value st k) [stru st v] phi (fun a => stru st v :: Q a).
Proof.
  intros SQ Hk. destruct ok; [exact (by_value_spec st v k phi Q SQ Hk)|]. intros h own S0. unfold by_value. pose proof (now_start _ _ _ S0) as N0.
  destruct (now_spec _ [stru st v] _ _ [] _ _ _ _ ltac:(stab) ltac:(stab) (construct_copy_spec st v) N0 ltac:(perm)) as (p & h1 & -> & _ & N1). cbn [hbind app] in *.
  destruct (now_both false (k p) [stru p v] phi _ [stru st v] _ _ _ _ ltac:(stab) ltac:(stab) (Hk p) N1 ltac:(perm)) as (e & ->). now exists e.
Qed.

Lemma nth_error_ext' {A} (l l' : list A) : (forall i, nth_error l i = nth_error l' i) -> l = l'.
Proof.
  revert l'. induction l as [|x l IH]; intros [|y l'] H; [reflexivity|specialize (H 0); discriminate|specialize (H 0); discriminate|].
  f_equal; [specialize (H 0); cbn in H; congruence|]. apply IH. intros i. exact (H (Datatypes.S i)).
Qed.

(** ** Single numbers of arrays *)
Lemma arr_read p b l i z : p = Some b -> nth_error l i = Some z -> reads (fun h => read_at h b [i]) [arr p l] z.
Proof.
  intros -> Hz. apply reads_one. intros h own Ha. destruct (arr_tree _ _ _ _ Ha) as (q & Eq & _ & T). injection Eq as <-.
  rewrite (read_spec [length l] h b [b] (at1 l) [i] T); [cbn [at1]; now rewrite Hz|]. apply within_1. apply nth_error_Some. congruence.
Qed.
Lemma arr_read_bad b l i h own : arr (Some b) l h own -> length l <= i -> read_at h b [i] = HErr OutOfBounds.
Proof.
  intros (q & Eq & _ & E) Hi. injection Eq as <-. cbn [read_at]. unfold load, block_of. rewrite E. cbn [hbind].
  assert (nth_error (map Some l) i = None) as -> by (apply nth_error_None; rewrite map_length; lia). reflexivity.
Qed.
Lemma replace_map {A B} (f : A -> B) l i x : replace (map f l) i (f x) = map f (replace l i x).
Proof. revert i. induction l as [|y l IH]; intros [|i]; cbn; auto. now rewrite IH. Qed.
Lemma arr_write b l i z : i < length l -> act (fun h => write_at h b [i] z) [arr (Some b) l] [arr (Some b) (replace l i z)].
Proof.
  intros Hi. apply act_one; [apply arr_stable|]. intros h own Ha. destruct Ha as (q & Eq & -> & E). injection Eq as <-. cbn [write_at].
  assert (b < length h) as Lb by (apply nth_error_Some; congruence).
  rewrite (store_ok _ _ _ _ _ E) by (rewrite map_length; lia). rewrite replace_map. eexists _, [b]. split; [reflexivity|]. split.
  - apply changes_same; [reflexivity|apply replace_length|]. intros x Hx. apply nth_replace_other. intros ->. apply Hx. now left.
  - apply one_sep; [|repeat constructor; easy]. exists b. repeat split. now apply nth_replace_same.
Qed.
Lemma coords_read st v i c : nth_error (coords v) i = Some c ->
  reads (fun h => deref (o_coords st) (fun bc => hmap (fun j => read_at h bc [i; j]) (seq 0 3))) [stru st v] c.
Proof.
  intros Hc. apply reads_one. intros h own (G & En & b & p & a & q & o1 & o2 & o3 & o4 & Eb & Ep & Ea & Ec & _ & Hd & T1 & T2 & T3 & T4).
  rewrite Ec. cbn [deref]. rewrite En in T4. destruct G as (_ & _ & _ & Gc & _). assert (i < length (coords v)) as Hi by (apply nth_error_Some; congruence).
  destruct (rows_row _ _ _ Gc Hi) as (c' & Ec' & Lc). assert (c' = c) as -> by congruence. apply hmap_ok0; [exact Lc|]. intros j z Hz.
  rewrite (read_spec _ _ _ _ _ [i; j] T4) by (apply within_2; [exact Hi|]; rewrite <- Lc; apply nth_error_Some; congruence). cbn [at2]. now rewrite Hc, Hz.
Qed.

(** ** The last atom of a bin *)
Lemma last_pos_range bs b : (-1 <= last_pos bs b < Z.of_nat (length bs))%Z.
Proof. induction bs as [|c r IH]; cbn [last_pos length]; [lia|]. destruct (Z.leb_spec 0 (last_pos r b)); [lia|]. destruct (c =? b)%Z; lia. Qed.
Lemma last_pos_snoc bs c b : last_pos (bs ++ [c]) b = if (c =? b)%Z then Z.of_nat (length bs) else last_pos bs b.
Proof.
  induction bs as [|x r IH]; cbn [app last_pos length]; [cbn; destruct (c =? b)%Z; reflexivity|]. rewrite IH. destruct (c =? b)%Z; [|reflexivity].
  destruct (Z.leb_spec 0 (Z.of_nat (length r))); lia.
Qed.

Section Numbers.
Variable lengths_of : printed -> list Z * list Z.
Variable extending : printed -> Z -> nat * nat * nat.
Variable bins_of : printed -> list Z -> nat * nat * nat.
Variable min_of : printed -> list Z.
Variable bin_of : bin_info -> list Z -> Z.
Variable found : bin_view -> nat -> list Z.
Variable arranged : bin_view -> nat -> list Z -> list Z.

(** ** Supercells *)
Lemma basic_info_spec p v : spec (basic_info lengths_of p) [stru p v] (fun a => a = (length (coords v), lengths_of (print_of v))) (fun _ => [stru p v]).
Proof.
  intros h own S0. destruct (sep_fact S0 p v) as ((_ & _ & G & _) & En); [now left|]. unfold basic_info. rewrite En. destruct (Nat.eqb_spec (length (coords v)) 0); [lia|].
  revert h own S0. apply (scratch_spec [3]); [discriminate|stab|intros; stab|]. apply (scratch_spec [3]); [discriminate|stab|intros; stab|].
  intros h own S0. rewrite (shown_reads p v h own S0). cbn [hbind]. eexists _, h, own. split; [reflexivity|]. split; [reflexivity|]. split; [apply changes_refl|exact S0].
Qed.
Definition cell_content (s : nat * nat * nat) (v : value) : sc_content :=
  let '(s0, s1, s2) := s in
  let n := length (coords v) in
  let cell := (central s0 + central s1 * Z.of_nat s0 + central s2 * Z.of_nat s0 * Z.of_nat s1)%Z in
  (enlarged s0 s1 s2 v, {| prim := n; lengths := lengths_of (print_of v); scaling := s; cell_xyz := (central s0, central s1, central s2); cell_idx := cell |},
   map (fun i => cell * Z.of_nat n + Z.of_nat i)%Z (seq 0 n)).
Definition positive (s : nat * nat * nat) : Prop := let '(s0, s1, s2) := s in 0 < s0 /\ 0 < s1 /\ 0 < s2.
Lemma construct_supercell_spec s st v : positive s ->
  spec (construct_supercell lengths_of s st) [stru st v] (fun a => sc_ok a (Some (cell_content s v))) (fun a => stru st v :: sc_asn a (Some (cell_content s v))).
Proof.
  intros Hs h own S0. destruct (sep_fact S0 st v) as ((_ & _ & G & _) & En); [now left|]. unfold construct_supercell. pose proof (now_start _ _ _ S0) as N0. destruct s as [[s0 s1] s2]. destruct Hs as (H0 & H1 & H2).
  destruct (now_spec _ (structs no_structure None ++ structs st (Some v)) _ _ [] _ _ _ _ ltac:(apply Forall_app; split; apply structs_stable) ltac:(stab)
    (assign_structure_spec no_structure None st (Some v) eq_refl I) N0 ltac:(perm)) as (mine & h1 & -> & _ & N1). cbn [hbind structs app] in *.
  destruct (now_spec _ [stru st v] _ _ [stru mine v] _ _ _ _ ltac:(stab) ltac:(stab)
    (by_value_spec st v (basic_info lengths_of) (fun a => a = (length (coords v), lengths_of (print_of v))) (fun _ => []) ltac:(intros; stab) (fun p => basic_info_spec p v)) N1 ltac:(perm)) as (nl & h2 & -> & -> & N2).
  cbn [hbind fst snd app] in *. cbn [cell_content]. set (n := length (coords v)) in *. set (cell := (central s0 + central s1 * Z.of_nat s0 + central s2 * Z.of_nat s0 * Z.of_nat s1)%Z) in *.
  set (owned := map (fun i => cell * Z.of_nat n + Z.of_nat i)%Z (seq 0 n)).
  assert (length owned = n) as Lo by (unfold owned; rewrite map_length; apply seq_length).
  destruct (now_spec _ [] _ _ [stru st v; stru mine v] _ _ _ _ ltac:(stab) ltac:(stab)
    (new_array_spec n (fun _ idx => match idx with [i] => HOk (cell * Z.of_nat n + Z.of_nat i)%Z | _ => HErr OutOfBounds end) owned Lo
      ltac:(intros hh i Hi; eexists; split; [reflexivity|]; unfold owned; rewrite nth_error_map, (nth_error_nth' _ 0) by (rewrite seq_length; lia); rewrite seq_nth by lia; reflexivity)) N2 ltac:(perm))
    as (b & h3 & -> & _ & N3). cbn [hbind app] in *.
  destruct (now_spec _ [stru mine v] _ _ [arr (Some b) owned; stru st v] _ _ _ _ ltac:(stab) ltac:(stab) (make_supercell_spec s0 s1 s2 mine v H0 H1 H2) N3 ltac:(perm)) as (big & h4 & -> & _ & N4). cbn [hbind app] in *.
  assert (now h own [stru st v; stru big (enlarged s0 s1 s2 v); arr (Some b) owned] h4) as N5 by (eapply now_perm; [exact N4|]; apply Permutation_sym; perm).
  destruct N5 as (new & C & S5). eexists _, h4, new. split; [reflexivity|]. split; [|split; [exact C|exact S5]].
  cbn. assert (n * s0 * s1 * s2 <> 0) by (fold n in G; nia). repeat split; auto; lia.
Qed.

(** ** Bins *)
Definition in_range (total : nat) (k : Z) : bool := ((0 <=? k)%Z && (k <? Z.of_nat total)%Z)%bool.
Definition heads_of (bs : list Z) (total : nat) : list Z := map (fun k => last_pos bs (Z.of_nat k)) (seq 0 total).
Definition nexts_of (bs : list Z) : list Z := map (fun i => last_pos (firstn i bs) (nth i bs 0%Z)) (seq 0 (length bs)).
Definition nexts_part (bs : list Z) (i : nat) : list Z := map (fun j => if j <? i then last_pos (firstn j bs) (nth j bs 0%Z) else (-1)%Z) (seq 0 (length bs)).
Lemma nth_map_seq {B} (f : nat -> B) n i : i < n -> nth_error (map f (seq 0 n)) i = Some (f i).
Proof. intros Hi. rewrite nth_error_map, (nth_error_nth' _ 0) by (rewrite seq_length; lia). now rewrite seq_nth by lia. Qed.
Lemma replace_map_seq {B} (f g : nat -> B) n i x : i < n -> g i = x -> (forall j, j <> i -> j < n -> g j = f j) -> replace (map f (seq 0 n)) i x = map g (seq 0 n).
Proof.
  intros Hi Hx H. apply nth_error_ext'. intros j. destruct (Nat.eq_dec i j) as [->|Hne].
  - rewrite nth_replace_same by (rewrite map_length, seq_length; lia). rewrite nth_map_seq by lia. now rewrite Hx.
  - rewrite nth_replace_other by auto. destruct (Nat.ltb_spec j n).
    + rewrite !nth_map_seq by lia. now rewrite H by auto.
    + assert (forall k : nat -> B, nth_error (map k (seq 0 n)) j = None) as E by (intros k; apply nth_error_None; rewrite map_length, seq_length; lia). now rewrite !E.
Qed.
Lemma build_bins_both info st v : let bs := map (bin_of info) (coords v) in let total := scaling3 (num_bin info) in
  both (forallb (in_range total) bs) (build_bins bin_of info st) [stru st v] (fun _ => True)
    (fun a => [arr (fst a) (heads_of bs total); arr (snd a) (nexts_of bs); stru st v]).
Proof.
  intros bs total h own S0. destruct (sep_fact S0 st v) as ((_ & _ & G & _) & En); [now left|]. pose proof (now_start _ _ _ S0) as N0. unfold build_bins. fold total. rewrite En.
  set (n := length (coords v)) in *. assert (length bs = n) as Lb by apply map_length.
  assert (forall m, spec (new_array [m] (fun _ _ => HOk (-1)%Z)) [] (fun _ => True) (fun b => [arr (Some b) (map (fun _ => (-1)%Z) (seq 0 m))])) as Hnew.
  { intros m. apply new_array_spec; [rewrite map_length; apply seq_length|]. intros hh i Hi. eexists. split; [reflexivity|]. now rewrite nth_map_seq. }
  destruct (now_spec _ [] _ _ [stru st v] _ _ _ _ ltac:(stab) ltac:(stab) (Hnew total) N0 ltac:(perm)) as (heads & h1 & E1 & _ & N1). rewrite E1. cbn [hbind app] in *.
  destruct (now_spec _ [] _ _ [arr (Some heads) (map (fun _ => (-1)%Z) (seq 0 total)); stru st v] _ _ _ _ ltac:(stab) ltac:(stab) (Hnew n) N1 ltac:(perm)) as (nexts & h2 & E2 & _ & N2). rewrite E2. cbn [hbind app] in *.
  set (f := fun (h : heap) ii => _).
  set (I := fun i s => now h own [arr (Some heads) (heads_of (firstn i bs) total); arr (Some nexts) (nexts_part bs i); stru st v] s).
  assert (I 0 h2) as I0.
  { unfold I. eapply now_perm; [exact N2|]. assert (nexts_part bs 0 = map (fun _ => (-1)%Z) (seq 0 n)) as -> by (unfold nexts_part; rewrite Lb; apply map_ext; reflexivity).
    cbn [firstn]. unfold heads_of. cbn [last_pos]. perm. }
  assert (forall i s k, i < n -> nth_error bs i = Some k -> in_range total k = true -> I i s -> exists s', f s i = HOk s' /\ I (Datatypes.S i) s') as Step.
  { intros i s k Hi Hk Hr Is. unfold I in Is. unfold f.
    assert (exists c, nth_error (coords v) i = Some c /\ k = bin_of info c) as (c & Hc & Ek).
    { unfold bs in Hk. rewrite nth_error_map in Hk. destruct (nth_error (coords v) i) as [c|]; [|discriminate]. cbn in Hk. injection Hk as <-. eauto. }
    assert (forall (A : Type) (K : list Z -> hres A), deref (o_coords st) (fun bc => hbind (hmap (fun j => read_at s bc [i; j]) (seq 0 3)) K) = K c) as ->.
    { intros A K. pose proof (now_reads _ [stru st v] [arr (Some heads) (heads_of (firstn i bs) total); arr (Some nexts) (nexts_part bs i)] _ _ _ _ _ (coords_read st v i c Hc) Is ltac:(perm)) as R.
      cbn beta in R. destruct (o_coords st); cbn [deref] in *; [now rewrite R|discriminate]. }
    rewrite <- Ek. unfold in_range in Hr. apply andb_prop in Hr. destruct Hr as (Hr0 & Hr1). apply Z.leb_le in Hr0. apply Z.ltb_lt in Hr1.
    destruct (Z.ltb_spec k 0); [lia|].
    assert (nth_error (heads_of (firstn i bs) total) (Z.to_nat k) = Some (last_pos (firstn i bs) k)) as Hh.
    { unfold heads_of. rewrite nth_map_seq by lia. now rewrite Z2Nat.id by lia. }
    rewrite (now_reads _ [arr (Some heads) (heads_of (firstn i bs) total)] [arr (Some nexts) (nexts_part bs i); stru st v] _ _ _ _ _ (arr_read _ heads _ _ _ eq_refl Hh) Is ltac:(perm)). cbn [hbind].
    assert (i < length (nexts_part bs i)) as Hl by (unfold nexts_part; rewrite map_length, seq_length; lia).
    destruct (now_act _ [arr (Some nexts) (nexts_part bs i)] _ [arr (Some heads) (heads_of (firstn i bs) total); stru st v] _ _ _ _ ltac:(stab) ltac:(stab)
      (arr_write nexts _ i (last_pos (firstn i bs) k) Hl) Is ltac:(perm)) as (s1 & -> & Is1). cbn [hbind app] in *.
    assert (Z.to_nat k < length (heads_of (firstn i bs) total)) as Hl' by (unfold heads_of; rewrite map_length, seq_length; lia).
    destruct (now_act _ [arr (Some heads) (heads_of (firstn i bs) total)] _ [arr (Some nexts) (replace (nexts_part bs i) i (last_pos (firstn i bs) k)); stru st v] _ _ _ _ ltac:(stab) ltac:(stab)
      (arr_write heads _ (Z.to_nat k) (Z.of_nat i) Hl') Is1 ltac:(perm)) as (s2 & -> & Is2). cbn [app] in *.
    exists s2. split; [reflexivity|]. unfold I. rewrite (firstn_snoc bs i k Hk).
    assert (replace (nexts_part bs i) i (last_pos (firstn i bs) k) = nexts_part bs (Datatypes.S i)) as <-.
    { unfold nexts_part. apply replace_map_seq; [lia| |].
      - destruct (Nat.ltb_spec i (Datatypes.S i)); [|lia]. now rewrite (nth_error_nth _ _ _ Hk).
      - intros j Hj _. destruct (Nat.ltb_spec j (Datatypes.S i)), (Nat.ltb_spec j i); auto; lia. }
    assert (replace (heads_of (firstn i bs) total) (Z.to_nat k) (Z.of_nat i) = heads_of (firstn i bs ++ [k]) total) as <-; [|exact Is2].
    unfold heads_of. apply replace_map_seq; [lia| |].
    - rewrite last_pos_snoc, Z2Nat.id, Z.eqb_refl by lia. rewrite firstn_length. f_equal. lia.
    - intros j Hj _. rewrite last_pos_snoc. destruct (Z.eqb_spec k (Z.of_nat j)); [|reflexivity]. lia. }
  destruct (forallb (in_range total) bs) eqn:Ok.
  - rewrite forallb_forall in Ok.
    destruct (hfold_inv f I n h2 I0) as (s & -> & Is).
    { intros i s Hi Is. destruct (nth_error bs i) as [k|] eqn:Ek; [|apply nth_error_None in Ek; lia]. apply (Step i s k); auto. apply Ok. eapply nth_error_In; eauto. }
    cbn [hbind]. unfold I in Is. rewrite <- Lb, firstn_all in Is at 1.
    assert (nexts_part bs n = nexts_of bs) as En'.
    { unfold nexts_part, nexts_of. apply map_ext_in. intros j Hj. apply in_seq in Hj. destruct (Nat.ltb_spec j n); [reflexivity|lia]. }
    rewrite En' in Is. destruct Is as (new & C & S1). exists (Some heads, Some nexts), s, new. auto.
  - assert (exists i k, nth_error bs i = Some k /\ in_range total k = false /\ forall j kk, j < i -> nth_error bs j = Some kk -> in_range total kk = true) as (i & k & Hk & Hr & Hbefore).
    { clear -Ok. induction bs as [|k r IH]; [discriminate|]. cbn [forallb] in Ok. destruct (in_range total k) eqn:E.
      - destruct (IH Ok) as (i & kk & Hk & Hr & Hb). exists (Datatypes.S i), kk. repeat split; auto. intros [|j] k' Hj Hj'; cbn in Hj'; [congruence|]. eapply Hb; eauto. lia.
      - exists 0, k. repeat split; auto. intros j kk Hj. lia. }
    assert (i < n) as Hi by (rewrite <- Lb; apply nth_error_Some; congruence).
    destruct (hfold_inv f I i h2 I0) as (s & Es & Is).
    { intros j s Hj Is. destruct (nth_error bs j) as [kk|] eqn:Ek; [|apply nth_error_None in Ek; lia]. apply (Step j s kk); eauto. lia. }
    replace n with (i + Datatypes.S (n - Datatypes.S i)) by lia. rewrite seq_app, hfold_app, Es. cbn [hbind seq hfold Nat.add].
    assert (f s i = HErr OutOfBounds) as ->; [|eexists; reflexivity].
    unfold I in Is. unfold f. assert (exists c, nth_error (coords v) i = Some c /\ k = bin_of info c) as (c & Hc & Ek).
    { unfold bs in Hk. rewrite nth_error_map in Hk. destruct (nth_error (coords v) i) as [c|]; [|discriminate]. cbn in Hk. injection Hk as <-. eauto. }
    assert (forall (A : Type) (K : list Z -> hres A), deref (o_coords st) (fun bc => hbind (hmap (fun j => read_at s bc [i; j]) (seq 0 3)) K) = K c) as ->.
    { intros A K. pose proof (now_reads _ [stru st v] [arr (Some heads) (heads_of (firstn i bs) total); arr (Some nexts) (nexts_part bs i)] _ _ _ _ _ (coords_read st v i c Hc) Is ltac:(perm)) as R.
      cbn beta in R. destruct (o_coords st); cbn [deref] in *; [now rewrite R|discriminate]. }
    rewrite <- Ek. unfold in_range in Hr. destruct (Z.ltb_spec k 0); [reflexivity|]. destruct (Z.leb_spec 0 k); [|lia]. cbn [andb] in Hr. apply Z.ltb_ge in Hr.
    destruct Is as (ow & _ & owns & F & _). inversion F as [|? o1 ? ? A1 _]; subst.
    rewrite (arr_read_bad _ _ _ _ _ A1); [reflexivity|]. unfold heads_of. rewrite map_length, seq_length. lia.
Qed.
End Numbers.
