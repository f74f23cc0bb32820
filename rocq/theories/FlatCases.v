(** The feature of a whole structure: a structure with two atoms, and consequences. *)
From Verif Require Import Arr Vec StructModel SiteIndexModel SeModel NeighModel StatsModel InferModel FlatModel NeighSpec SeSpec SiteIndexSpec StructSpec InferSpec.
From Verif Require Import StructGlue NeighProofs NeighReal InferProofs InferRows InferFinal InferCases FlatProofs FlatFinal FlatSpec.
From Coq Require Import ZifyBool.
Open Scope nat_scope.

(** Atoms of one element are not kept together. *)
Lemma interleaved counts widths ci i : Datatypes.S i < nth ci counts 0 -> 0 < nth 0 widths 0 -> place counts widths ci 0 (Datatypes.S i) 0 0 < place counts widths ci 1 i 0 0.
Proof.
  intros Hc Hw. unfold place. destruct widths as [|w ws]; [cbn in Hw; lia|]. cbn [firstn nth list_sum fold_right] in *. set (n := nth ci counts 0) in *. set (u := nth 0 ws 0). set (t := list_sum (firstn ci counts) * list_sum (w :: ws)). nia.
Qed.
(** No position is used twice. *)
Lemma sum_firstn_step l i : list_sum (firstn (Datatypes.S i) l) = list_sum (firstn i l) + nth i l 0.
Proof. revert i. induction l as [|x l IH]; intros [|i]; try reflexivity. - cbn. lia. - change (firstn (Datatypes.S (Datatypes.S i)) (x :: l)) with (x :: firstn (Datatypes.S i) l). change (firstn (Datatypes.S i) (x :: l)) with (x :: firstn i l).
  change (list_sum (?a :: ?r)) with (a + list_sum r). rewrite IH. change (nth (Datatypes.S i) (x :: l) 0) with (nth i l 0). lia. Qed.
Lemma sum_firstn_le l i : forall j, i <= j -> list_sum (firstn i l) <= list_sum (firstn j l).
Proof. intros j H. induction H as [|j H IH]; [reflexivity|]. rewrite sum_firstn_step. lia. Qed.
Lemma sum_firstn_all l i : i < length l -> list_sum (firstn i l) + nth i l 0 <= list_sum l.
Proof. intros H. rewrite <- sum_firstn_step. apply Nat.le_trans with (list_sum (firstn (length l) l)); [apply sum_firstn_le; lia|rewrite firstn_all; reflexivity]. Qed.
Lemma prefix_cut l i j x y : x < nth i l 0 -> y < nth j l 0 -> list_sum (firstn i l) + x = list_sum (firstn j l) + y -> i = j /\ x = y.
Proof.
  intros Hx Hy E. destruct (Nat.lt_trichotomy i j) as [L|[->|L]]; [|lia|]; exfalso.
  - assert (X := sum_firstn_le l (Datatypes.S i) j L). rewrite sum_firstn_step in X. lia.
  - assert (X := sum_firstn_le l (Datatypes.S j) i L). rewrite sum_firstn_step in X. lia.
Qed.
Lemma prefix_cut_scaled l m i j x y : x < m * nth i l 0 -> y < m * nth j l 0 -> m * list_sum (firstn i l) + x = m * list_sum (firstn j l) + y -> i = j /\ x = y.
Proof.
  intros Hx Hy E. destruct (Nat.lt_trichotomy i j) as [L|[->|L]]; [|lia|]; exfalso.
  - assert (X := sum_firstn_le l (Datatypes.S i) j L). rewrite sum_firstn_step in X. nia.
  - assert (X := sum_firstn_le l (Datatypes.S j) i L). rewrite sum_firstn_step in X. nia.
Qed.
Lemma mul_cut m i j x y : x < m -> y < m -> i * m + x = j * m + y -> i = j /\ x = y.
Proof. intros Hx Hy E. assert (i = j) by nia. subst. lia. Qed.
Lemma place_injective counts widths ci ni i k a ci' ni' i' k' a' :
  ci < length counts -> ni < length widths -> i < nth ci counts 0 -> k < nth ni widths 0 -> a < 4 ->
  ci' < length counts -> ni' < length widths -> i' < nth ci' counts 0 -> k' < nth ni' widths 0 -> a' < 4 ->
  place counts widths ci ni i k a = place counts widths ci' ni' i' k' a' -> ci = ci' /\ ni = ni' /\ i = i' /\ k = k' /\ a = a'.
Proof.
  unfold place. intros Hc Hn Hi Hk Ha Hc' Hn' Hi' Hk' Ha' E.
  assert (E4 : list_sum (firstn ci counts) * list_sum widths + nth ci counts 0 * list_sum (firstn ni widths) + i * nth ni widths 0 + k = list_sum (firstn ci' counts) * list_sum widths + nth ci' counts 0 * list_sum (firstn ni' widths) + i' * nth ni' widths 0 + k' /\ a = a') by lia.
  destruct E4 as [E4 ->]. clear E Ha Ha'. assert (W := sum_firstn_all widths ni Hn). assert (W' := sum_firstn_all widths ni' Hn'). set (w := list_sum widths) in *.
  assert (B : nth ci counts 0 * list_sum (firstn ni widths) + i * nth ni widths 0 + k < w * nth ci counts 0) by nia.
  assert (B' : nth ci' counts 0 * list_sum (firstn ni' widths) + i' * nth ni' widths 0 + k' < w * nth ci' counts 0) by nia.
  destruct (prefix_cut_scaled counts w ci ci' (nth ci counts 0 * list_sum (firstn ni widths) + i * nth ni widths 0 + k) (nth ci' counts 0 * list_sum (firstn ni' widths) + i' * nth ni' widths 0 + k') B B') as [-> E5]; [lia|]. clear E4 B B'.
  set (n := nth ci' counts 0) in *.
  destruct (prefix_cut_scaled widths n ni ni' (i * nth ni widths 0 + k) (i' * nth ni' widths 0 + k')) as [-> E6]; [nia|nia|lia|].
  destruct (mul_cut (nth ni' widths 0) i i' k k' Hk Hk' E6) as [-> ->]. auto.
Qed.

Notation flat2 cs ns ws := (flat_of (insertion_argsort Rleb) axis_a axis_b axis_c 2 1 1 1 1 two_sites cs ns ws).
Lemma two_oxygen atoms cen : copies axis_a axis_b axis_c 1 1 1 two_sites atoms -> (forall z, map (nth_error atoms) (cen z) = map Some (sites_of z two_sites)) ->
  exists o h, cen 8%Z = [o] /\ cen 1%Z = [h] /\ nth_error atoms o = Some atom_o /\ nth_error atoms h = Some atom_h.
Proof.
  intros Hc H. assert (H8 := H 8%Z). assert (H1 := H 1%Z). cbn in H8, H1. destruct (cen 8%Z) as [|o [|? ?]]; try discriminate. destruct (cen 1%Z) as [|h [|? ?]]; try discriminate.
  exists o, h. cbn [map] in H8, H1. injection H8 as H8. injection H1 as H1. split; [reflexivity|]. split; [reflexivity|]. split; [exact H8|exact H1].
Qed.
(** A neighbour is dropped without notice. *)
Lemma dropped : exists atoms cen, copies axis_a axis_b axis_c 1 1 1 two_sites atoms /\ (forall z, map (nth_error atoms) (cen z) = map Some (sites_of z two_sites)) /\
  crowded atoms 2 vdist Rleb (1%Z, 0) (cen 8%Z) /\ flat2 [8]%Z [1]%Z [0]%Z = Ok [].
Proof.
  destruct (pair_sem (insertion_argsort Rleb) axis_a axis_b axis_c (insertion_sorts Rleb Rleb_total) det_ne 2 1 1 1 1 two_sites odd1 odd1 odd1 two_separated ltac:(lra) sites_ne) as (atoms & table & cen & En & Hc & Hm & Sem).
  exists atoms, cen. split; [exact Hc|]. split; [exact Hm|]. destruct (two_oxygen atoms cen Hc Hm) as (o & h & E8 & E1 & Ho & Hh).
  assert (Nu : number (of_element 1%Z (near vdist Rleb atoms 2%R) o) atoms 1).
  { exists [h]. split; [|reflexivity]. apply (two_lists atoms Hc o h Ho Hh o 1%Z _ (or_introl eq_refl)). rewrite Nat.eqb_refl. reflexivity. }
  split; [exists o, 1; rewrite E8; split; [left; reflexivity|split; [exact Nu|cbn; lia]]|].
  unfold flat_of. rewrite En. cbn [bind]. destruct (Sem 8%Z 1%Z ltac:(lia)) as (real & rows & Ep & F & Top). rewrite E8 in F, Top. inversion F as [|? row ? ? Rr F']; subst. inversion F'; subst.
  assert (real = 1).
  { destruct Rr as (cen' & sel & _ & Ps & Le & _). cbn [fst snd] in *. assert (length sel = 1) by (apply (number_unique _ atoms _ _ (ex_intro _ _ (conj (proj1 Ps) eq_refl)) Nu)).
    destruct Top as [->|(c & [<-|[]] & Nc)]; [lia|exact (number_unique _ atoms _ _ Nc Nu)]. }
  subst real. unfold flat_feature. cbn [enumerate length seq combine mapM]. unfold flat_block. cbn [fst snd get nth_error bind]. unfold get. cbn [nth_error bind]. rewrite Ep. cbn [bind fst snd]. reflexivity.
Qed.
(** The hypotheses can be met. *)
Lemma two_flat : exists atoms cen, copies axis_a axis_b axis_c 1 1 1 two_sites atoms /\ (forall z, map (nth_error atoms) (cen z) = map Some (sites_of z two_sites)) /\
  (forall z zw, In z [8; 1]%Z -> In zw [(1%Z, 1); (8%Z, 1)] -> ~ crowded atoms 2 vdist Rleb zw (cen z)).
Proof.
  destruct (pair_sem (insertion_argsort Rleb) axis_a axis_b axis_c (insertion_sorts Rleb Rleb_total) det_ne 2 1 1 1 1 two_sites odd1 odd1 odd1 two_separated ltac:(lra) sites_ne) as (atoms & table & cen & En & Hc & Hm & Sem).
  exists atoms, cen. split; [exact Hc|]. split; [exact Hm|]. destruct (two_oxygen atoms cen Hc Hm) as (o & h & E8 & E1 & Ho & Hh).
  intros z zw Iz Izw (c & n & Ic & Nn & Lt).
  assert (Hcc : c = o \/ c = h) by (destruct Iz as [<-|[<-|[]]]; [rewrite E8 in Ic|rewrite E1 in Ic]; destruct Ic as [<-|[]]; auto).
  destruct (two_fits atoms Hc o h Ho Hh c [(1%Z, 1); (8%Z, 1)] Hcc) with (zw := zw) as (n' & Nn' & Le); [intros zw' [<-|[<-|[]]]; cbn; lia|exact Izw|].
  assert (n = n') by (apply (number_unique _ atoms _ _ Nn Nn')). lia.
Qed.
Lemma two_length : exists flat, flat2 [8; 1]%Z [1; 8]%Z [1; 1]%Z = Ok flat /\ length flat = 16.
Proof.
  destruct (flat_all (insertion_argsort Rleb) axis_a axis_b axis_c (insertion_sorts Rleb Rleb_total) det_ne 2 1 1 1 1 two_sites odd1 odd1 odd1 two_separated ltac:(lra) ltac:(lra) sites_ne [8; 1]%Z [(1%Z, 1); (8%Z, 1)] [] ltac:(discriminate) ltac:(discriminate)) as (E & atoms & cen & _ & Hc & Hm & Hok & _).
  { intros zw [<-|[<-|[]]]; cbn; lia. }
  destruct Hok as (flat & Ef & Lf & _).
  { destruct (two_oxygen atoms cen Hc Hm) as (o & h & E8 & E1 & Ho & Hh). intros z zw Iz Izw (c & n & Ic & Nn & Lt).
    assert (Hcc : c = o \/ c = h) by (destruct Iz as [<-|[<-|[]]]; [rewrite E8 in Ic|rewrite E1 in Ic]; destruct Ic as [<-|[]]; auto).
    destruct (two_fits atoms Hc o h Ho Hh c [(1%Z, 1); (8%Z, 1)] Hcc) with (zw := zw) as (n' & Nn' & Le); [intros zw' [<-|[<-|[]]]; cbn; lia|exact Izw|].
    assert (n = n') by (apply (number_unique _ atoms _ _ Nn Nn')). lia. }
  exists flat. split; [exact Ef|]. rewrite Lf. reflexivity.
Qed.
Lemma nodup_lists_set : lists_set (nodup Z.eq_dec).
Proof. intros l. split; [apply NoDup_nodup|intros z; apply nodup_In]. Qed.
