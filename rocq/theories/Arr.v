(** Arrays as lists: checked writes and loops over a list of indices.  A write
    outside the array is undefined behaviour in C++; here it is [IndexError]. *)
From Verif Require Export Base.

Definition set {A} (l : list A) (i : nat) (x : A) : result (list A) :=
  if i <? length l then Ok (firstn i l ++ x :: skipn (S i) l) else Err IndexError.

(** A loop: the body may fail. *)
Fixpoint foldM {A S} (f : S -> A -> result S) (l : list A) (s : S) : result S :=
  match l with
  | [] => Ok s
  | x :: r => bind (f s x) (fun s' => foldM f r s')
  end.

(** Consecutive writes from position [pos] on. *)
Fixpoint write_group {A} (a : list A) (pos : nat) (vs : list A) : result (list A) :=
  match vs with
  | [] => Ok a
  | v :: r => bind (set a pos v) (fun a' => write_group a' (S pos) r)
  end.

(** *** Lemmas *)

Lemma get_ok {A} (l : list A) i d : i < length l -> get l i = Ok (nth i l d).
Proof. intros H. unfold get. rewrite (nth_error_nth' l d H). reflexivity. Qed.
Lemma get_bad {A} (l : list A) i : length l <= i -> get l i = Err IndexError.
Proof. intros H. unfold get. rewrite (proj2 (nth_error_None l i) H). reflexivity. Qed.
Lemma get_inv {A} (l : list A) i x : get l i = Ok x -> nth_error l i = Some x.
Proof. unfold get. destruct (nth_error l i); intros [=]; subst; reflexivity. Qed.
Lemma get_some {A} (l : list A) i x : nth_error l i = Some x -> get l i = Ok x.
Proof. intros H. unfold get. rewrite H. reflexivity. Qed.

Lemma set_bad {A} (l : list A) i x : length l <= i -> set l i x = Err IndexError.
Proof. intros H. unfold set. destruct (Nat.ltb_spec i (length l)); [lia|reflexivity]. Qed.
Lemma set_ok {A} (l : list A) i x : i < length l -> exists l', set l i x = Ok l' /\ length l' = length l /\
  forall j, nth_error l' j = if j =? i then Some x else nth_error l j.
Proof.
  intros H. unfold set. destruct (Nat.ltb_spec i (length l)); [|lia]. eexists. split; [reflexivity|].
  assert (F : length (firstn i l) = i) by (rewrite firstn_length; lia). split.
  - rewrite app_length, F. cbn [length]. rewrite skipn_length. lia.
  - intros j. destruct (Nat.eqb_spec j i) as [->|N].
    + rewrite nth_error_app2 by lia. rewrite F, Nat.sub_diag. reflexivity.
    + destruct (Nat.lt_ge_cases j i) as [L|G].
      * rewrite nth_error_app1 by lia. rewrite <- (firstn_skipn i l) at 2. rewrite nth_error_app1 by lia. reflexivity.
      * rewrite nth_error_app2 by lia. rewrite F. destruct (j - i) as [|k] eqn:E; [lia|]. cbn [nth_error].
        assert (J : j = S i + k) by lia. subst j. rewrite <- (firstn_skipn (S i) l) at 2.
        rewrite nth_error_app2 by (rewrite firstn_length; lia). rewrite firstn_length. f_equal. lia.
Qed.
Lemma set_inv {A} (l : list A) i x l' : set l i x = Ok l' -> i < length l /\ length l' = length l /\
  forall j, nth_error l' j = if j =? i then Some x else nth_error l j.
Proof.
  intros H. destruct (Nat.lt_ge_cases i (length l)) as [L|G].
  - split; [exact L|]. destruct (set_ok l i x L) as (l2 & E & K). rewrite E in H. injection H as <-. exact K.
  - rewrite (set_bad _ _ _ G) in H. discriminate.
Qed.
Lemma set_app {A} (u : list A) y v x : set (u ++ y :: v) (length u) x = Ok (u ++ x :: v).
Proof.
  unfold set. destruct (Nat.ltb_spec (length u) (length (u ++ y :: v))) as [L|G]; [|rewrite app_length in G; cbn in G; lia].
  rewrite firstn_app, Nat.sub_diag, firstn_all, app_nil_r.
  change (S (length u)) with (1 + length u). rewrite Nat.add_comm. rewrite skipn_app.
  rewrite skipn_all2 by lia. replace (length u + 1 - length u) with 1 by lia. reflexivity.
Qed.

Lemma nth_error_ext {A} (l l' : list A) : length l = length l' -> (forall i, i < length l -> nth_error l i = nth_error l' i) -> l = l'.
Proof.
  revert l'. induction l as [|x l IH]; intros [|y l'] L H; try discriminate; [reflexivity|].
  f_equal; [specialize (H 0 ltac:(cbn; lia)); cbn in H; congruence|].
  apply IH; [cbn in L; lia|]. intros i Hi. apply (H (S i)). cbn. lia.
Qed.

Lemma foldM_app {A S} (f : S -> A -> result S) l1 l2 s : foldM f (l1 ++ l2) s = bind (foldM f l1 s) (foldM f l2).
Proof. revert s. induction l1 as [|x l IH]; intros s; [reflexivity|]. cbn. destruct (f s x); [cbn; apply IH|reflexivity]. Qed.
Lemma foldM_ext {A S} (f g : S -> A -> result S) l s : (forall a, In a l -> forall s, f s a = g s a) -> foldM f l s = foldM g l s.
Proof.
  revert s. induction l as [|x l IH]; intros s H; [reflexivity|]. cbn. rewrite H by (left; reflexivity).
  destruct (g s x); [cbn; apply IH; intros; apply H; right; assumption|reflexivity].
Qed.
Lemma foldM_map {A B S} (f : S -> B -> result S) (g : A -> B) l s : foldM f (map g l) s = foldM (fun s a => f s (g a)) l s.
Proof. revert s. induction l as [|x l IH]; intros s; [reflexivity|]. cbn. destruct (f s (g x)); [cbn; apply IH|reflexivity]. Qed.

Lemma write_group_bad {A} (vs : list A) : forall a pos, vs <> [] -> length a < pos + length vs -> write_group a pos vs = Err IndexError.
Proof.
  induction vs as [|v vs IH]; intros a pos N L; [congruence|]. cbn in *.
  destruct (Nat.lt_ge_cases pos (length a)) as [H|H].
  - destruct (set_ok a pos v H) as (a' & E & La & _). rewrite E. cbn. apply IH; [|lia].
    destruct vs; [cbn in L; lia|discriminate].
  - rewrite set_bad by exact H. reflexivity.
Qed.
Lemma write_group_ok {A} (vs : list A) : forall a pos, pos + length vs <= length a ->
  exists a', write_group a pos vs = Ok a' /\ length a' = length a /\
  forall j, nth_error a' j = if (pos <=? j) && (j <? pos + length vs) then nth_error vs (j - pos) else nth_error a j.
Proof.
  induction vs as [|v vs IH]; intros a pos L; cbn [write_group length] in *.
  - exists a. split; [reflexivity|]. split; [reflexivity|]. intros j.
    destruct (Nat.leb_spec pos j), (Nat.ltb_spec j (pos + 0)); cbn; try reflexivity; lia.
  - destruct (set_ok a pos v ltac:(lia)) as (a1 & E & L1 & N1). rewrite E. cbn [bind].
    destruct (IH a1 (S pos) ltac:(lia)) as (a2 & E2 & L2 & N2). exists a2. split; [exact E2|]. split; [congruence|].
    intros j. rewrite N2. destruct (Nat.leb_spec (S pos) j), (Nat.ltb_spec j (S pos + length vs)), (Nat.leb_spec pos j), (Nat.ltb_spec j (pos + S (length vs))); cbn [andb]; try lia.
    + replace (j - pos) with (S (j - S pos)) by lia. reflexivity.
    + rewrite N1. destruct (Nat.eqb_spec j pos); [lia|reflexivity].
    + rewrite N1. destruct (Nat.eqb_spec j pos); [|lia]. subst. rewrite Nat.sub_diag. reflexivity.
    + rewrite N1. destruct (Nat.eqb_spec j pos); [lia|reflexivity].
Qed.
