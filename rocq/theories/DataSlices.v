(** Lemmas for the slice, mixed-size and empty-selection theorems of C25 and C29. *)
From Coq Require Import String List ZArith Lia Arith.
From Verif Require Import Base ElementModel DataModel DataSpec DataText DataProofs.
Import ListNotations.

Lemma clip_position n a : position n a (clip n a).
Proof.
  unfold position, clip. destruct (a <? 0)%Z eqn:E; [apply Z.ltb_lt in E|apply Z.ltb_ge in E].
  - split; [lia|]. split; [lia|]. intros _. destruct (Z_lt_le_dec (a + Z.of_nat n) 0); [right|left]; lia.
  - split; [lia|]. split; [|lia]. intros _. destruct (Z_lt_le_dec (Z.of_nat n) a); [right|left]; lia.
Qed.
Lemma pyslice_sliced {A} a b (l : list A) : sliced a b l (pyslice a b l).
Proof.
  exists (clip (length l) a), (clip (length l) b). assert (P := clip_position (length l) a). assert (Q := clip_position (length l) b).
  split; [exact P|]. split; [exact Q|]. unfold pyslice, slice. set (p := clip (length l) a) in *. set (q := clip (length l) b) in *. clearbody p q. destruct P as [P _], Q as [Q _].
  destruct (p <=? q) eqn:E; [apply Nat.leb_le in E|apply Nat.leb_gt in E].
  - exists (firstn p l), (skipn (q - p) (skipn p l)). rewrite firstn_skipn, firstn_skipn. split; [reflexivity|]. rewrite app_length, !firstn_length, skipn_length. split; lia.
  - replace (q - p) with 0 by lia. reflexivity.
Qed.

Section Slices.
Context {F : Type}.
Lemma getitem_sliced (c : @coll F) a b : (forall c', getitem c a b = Ok c' -> sliced a b (co_structs c) (co_structs c') /\ sliced a b (co_total c) (co_total c') /\
    sliced a b (co_potential c) (co_potential c') /\ sliced a b (co_kinetic c) (co_kinetic c') /\ sliced a b (co_virial c) (co_virial c')) /\
  (sliced a b (co_structs c) [] -> getitem c a b = Err IndexError) /\ (~ sliced a b (co_structs c) [] -> exists c', getitem c a b = Ok c').
Proof.
  assert (U : forall A (l l1 l2 : list A), sliced a b l l1 -> sliced a b l l2 -> l1 = l2).
  { intros A l l1 l2 (p & q & P & Q & H) (p' & q' & P' & Q' & H'). assert (p' = p /\ q' = q) as [-> ->] by (unfold position in *; lia).
    destruct (p <=? q); [|congruence]. destruct H as (x & y & E & L1 & L2), H' as (x' & y' & E' & L1' & L2'). rewrite app_length in L2, L2'.
    rewrite E in E'. assert (x = x' /\ l1 ++ y = l2 ++ y') as [-> E2].
    { assert (firstn (length x) (x ++ l1 ++ y) = firstn (length x) (x' ++ l2 ++ y')) as T by now rewrite E'. rewrite firstn_app, Nat.sub_diag, firstn_all, firstn_O, app_nil_r in T.
      rewrite L1, <- L1', firstn_app, Nat.sub_diag, firstn_all, firstn_O, app_nil_r in T. subst x'. split; [reflexivity|]. now apply app_inv_head in E'. }
    assert (firstn (length l1) (l1 ++ y) = firstn (length l1) (l2 ++ y')) as T by now rewrite E2. rewrite firstn_app, Nat.sub_diag, firstn_all, firstn_O, app_nil_r in T.
    replace (length l1) with (length l2) in T by lia. rewrite firstn_app, Nat.sub_diag, firstn_all, firstn_O, app_nil_r in T. exact T. }
  assert (X := @pyslice_sliced). unfold getitem, make.
  destruct (pyslice a b (co_structs c)) as [|s0 r] eqn:E.
  - cbn. split; [discriminate|]. split; [reflexivity|]. intros H. exfalso. apply H. rewrite <- E. apply X.
  - cbn. split; [|split].
    + intros c' H. injection H as <-. cbn. rewrite <- E. repeat split; apply X.
    + intros H. exfalso. assert (T := U _ _ _ _ H (X _ a b (co_structs c))). rewrite E in T. discriminate.
    + eauto.
Qed.
Lemma np_stack_bad (l : list (list F)) : ~ equal_lengths l -> np_stack l = Err ValueError.
Proof.
  intros H. destruct l as [|r rest]; [exfalso; apply H; intros ? ? []|]. cbn. destruct (forallb (fun x => length x =? length r) rest) eqn:E; [|reflexivity].
  exfalso. apply H. assert (K : forall x, In x (r :: rest) -> length x = length r).
  { intros x [<-|I]; [reflexivity|]. rewrite forallb_forall in E. apply Nat.eqb_eq. now apply E. }
  intros x y Ix Iy. rewrite (K x Ix), (K y Iy). reflexivity.
Qed.
Lemma mixed_sizes (nonzero : F -> bool) (structs : list struct) (tot pot kin : list F) vir c old s : make structs tot pot kin vir = Ok c ->
  equal_lengths (map st_box structs) -> ~ equal_lengths (map (fun x => concat (st_coords x)) structs) ->
  snd (to nonzero old c s) = Err ValueError /\ set_dirs (fst (to nonzero old c s)) = [].
Proof.
  intros M E1 E2. destruct (make_some _ _ _ _ _ _ M) as (H1 & H2 & _ & _ & H5 & s0 & r & E & _).
  destruct (to_prefix nonzero _ _ _ _ _ _ _ _ M E) as (ts & _ & T). rewrite T. cbv zeta.
  assert (build_arrays c = Err ValueError) as ->; [|split; reflexivity].
  unfold build_arrays. rewrite H1. rewrite np_stack_ok by assumption. cbn [bind].
  assert (reshape (length structs) (concat (map st_box structs)) = Ok (map st_box structs)) as ->.
  { rewrite <- (map_length st_box structs) at 1. apply reshape_ok; [|exact E1]. rewrite E. discriminate. }
  cbn [bind]. rewrite np_stack_bad by assumption. reflexivity.
Qed.
Lemma empty_selection (zero : F) c : from_indices zero c [] = Raised ValueError.
Proof. reflexivity. Qed.
End Slices.
