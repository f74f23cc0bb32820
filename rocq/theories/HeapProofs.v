(** Lemmas about the C heap. *)
From Verif Require Import HeapModel.
Open Scope nat_scope.

Lemma replace_length {A} (l : list A) i x : length (replace l i x) = length l.
Proof. revert i. induction l as [|y l IH]; intros [|i]; cbn; try reflexivity. rewrite IH. reflexivity. Qed.
Lemma replace_nth {A} (l : list A) i x k : nth_error (replace l i x) k = if (k =? i) && (i <? length l) then Some x else nth_error l k.
Proof.
  revert i k. induction l as [|y l IH]; intros i k.
  - cbn. rewrite andb_false_r. destruct i; reflexivity.
  - destruct i as [|i], k as [|k]; try reflexivity. cbn [replace nth_error]. rewrite IH. reflexivity.
Qed.
Lemma replace_app {A} (l r : list A) x y : replace (l ++ x :: r) (length l) y = l ++ y :: r.
Proof. induction l as [|z l IH]; [reflexivity|]. cbn. rewrite IH. reflexivity. Qed.

Lemma replace_app' {A} (l r : list A) x y k : length l = k -> replace (l ++ x :: r) k y = l ++ y :: r.
Proof. intros <-. apply replace_app. Qed.

Lemma hfold_app {A S} (f : S -> A -> hres S) l m s : hfold f (l ++ m) s = hbind (hfold f l s) (hfold f m).
Proof. revert s. induction l as [|x l IH]; intros s; [reflexivity|]. cbn. destruct (f s x); cbn; [apply IH|reflexivity]. Qed.

(** The table [vs] behind pointer [p]; an empty table may also be the null pointer. *)
Definition tab (h : heap) (p : ptr) (vs : list Z) : Prop :=
  (p = None /\ vs = []) \/ (exists b, p = Some b /\ nth_error h b = Some (Some (map Some vs))).

Lemma tab_frame h h' p vs : (forall b, p = Some b -> nth_error h' b = nth_error h b) -> tab h p vs -> tab h' p vs.
Proof. intros F [[-> ->]|(b & -> & E)]; [left; split; reflexivity|]. right. exists b. split; [reflexivity|]. rewrite F; [exact E|reflexivity]. Qed.
Lemma tab_extend h e p vs : tab h p vs -> tab (h ++ e) p vs.
Proof.
  intros [[-> ->]|(b & -> & E)]; [left; split; reflexivity|]. right. exists b. split; [reflexivity|].
  rewrite nth_error_app1; [exact E|]. apply nth_error_Some. congruence.
Qed.
Lemma tab_bound h p vs b : tab h p vs -> p = Some b -> b < length h.
Proof. intros [[-> _]|(b' & -> & E)] H; [discriminate|]. injection H as ->. apply nth_error_Some. congruence. Qed.
Lemma tab_fresh h vs : tab (h ++ [Some (map Some vs)]) (Some (length h)) vs.
Proof. right. exists (length h). split; [reflexivity|]. rewrite nth_error_app2, Nat.sub_diag by lia. reflexivity. Qed.

Lemma load_tab h p vs i : tab h p vs -> i < length vs -> load h p i = HOk (nth i vs 0%Z).
Proof.
  intros [[-> ->]|(b & -> & E)] L; [cbn in L; lia|]. unfold load, block_of. rewrite E. cbn [hbind].
  rewrite nth_error_map. rewrite (nth_error_nth' vs 0%Z L). reflexivity.
Qed.

(** *** Filling a fresh block *)
Definition partly (h : heap) (vs : list Z) (k : nat) : heap := h ++ [Some (map Some (firstn k vs) ++ repeat None (length vs - k))].
Lemma partly_0 h vs : partly h vs 0 = h ++ [Some (repeat None (length vs))].
Proof. unfold partly. rewrite Nat.sub_0_r. reflexivity. Qed.
Lemma partly_all h vs : partly h vs (length vs) = h ++ [Some (map Some vs)].
Proof. unfold partly. rewrite Nat.sub_diag, firstn_all, app_nil_r. reflexivity. Qed.
Lemma firstn_snoc (vs : list Z) k : k < length vs -> firstn (S k) vs = firstn k vs ++ [nth k vs 0%Z].
Proof.
  revert k. induction vs as [|v vs IH]; intros k L; [cbn in L; lia|]. destruct k as [|k]; [reflexivity|].
  cbn [length] in L. change (firstn (S (S k)) (v :: vs)) with (v :: firstn (S k) vs). rewrite IH by lia. reflexivity.
Qed.
Lemma store_partly h vs k : k < length vs -> store (partly h vs k) (Some (length h)) k (nth k vs 0%Z) = HOk (partly h vs (S k)).
Proof.
  intros L. unfold store, block_of, partly. rewrite nth_error_app2, Nat.sub_diag by lia. cbn [nth_error hbind].
  assert (F : length (map Some (firstn k vs)) = k) by (rewrite map_length, firstn_length; lia).
  destruct (Nat.ltb_spec k (length (map Some (firstn k vs) ++ repeat (@None Z) (length vs - k)))) as [_|W]; [|rewrite app_length, repeat_length, F in W; lia].
  rewrite replace_app. rewrite (firstn_snoc vs k L), map_app, <- app_assoc. cbn [map app].
  replace (length vs - k) with (S (length vs - S k)) by lia. cbn [repeat]. rewrite (replace_app' _ _ _ _ k F). reflexivity.
Qed.
Lemma fill_loop h vs (f : heap -> nat -> hres heap) :
  (forall k, k < length vs -> f (partly h vs k) k = store (partly h vs k) (Some (length h)) k (nth k vs 0%Z)) ->
  hfold f (seq 0 (length vs)) (h ++ [Some (repeat None (length vs))]) = HOk (h ++ [Some (map Some vs)]).
Proof.
  intros F. rewrite <- (partly_0 h vs), <- (partly_all h vs).
  assert (G : forall n, n <= length vs -> hfold f (seq 0 n) (partly h vs 0) = HOk (partly h vs n)).
  { induction n as [|n IH]; intros L; [reflexivity|]. rewrite seq_S, hfold_app, IH by lia. cbn [hbind hfold Nat.add].
    rewrite F, store_partly by lia. reflexivity. }
  apply G. lia.
Qed.

(** *** Freeing *)
Lemma free_tab h p vs : tab h p vs -> exists h', hfree h p = HOk h' /\ length h' = length h /\
  (forall b, p = Some b -> nth_error h' b = Some None) /\ (forall b, p <> Some b -> nth_error h' b = nth_error h b).
Proof.
  intros [[-> ->]|(b & -> & E)].
  - exists h. repeat split; discriminate.
  - assert (B : b < length h) by (apply nth_error_Some; congruence). exists (replace h b None). cbn [hfree]. rewrite E. split; [reflexivity|]. split; [apply replace_length|].
    split; intros b' H; rewrite replace_nth.
    + injection H as <-. rewrite Nat.eqb_refl, (proj2 (Nat.ltb_lt _ _) B). reflexivity.
    + destruct (Nat.eqb_spec b' b) as [->|D]; [congruence|reflexivity].
Qed.
