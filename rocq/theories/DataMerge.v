(** Proofs about merging data files. *)
From Coq Require Import String ZifyBool ZifyNat Permutation Morphisms.
From Verif Require Import Base ElementModel ElementProofs DataModel DataSpec DataText DataProofs DataParts.

(** ** Small facts *)
Definition sym (a : Z) : string := match symbol_of a with Ok s => s | Err _ => EmptyString end.
Definition known (a : Z) : Prop := (0 <= a <= 118)%Z.

Lemma sym_ok a : known a -> symbol_of a = Ok (sym a).
Proof. intros K. apply symbol_domain in K. destruct K as [s E]. unfold sym. now rewrite E. Qed.
Lemma sym_inj a b : known a -> known b -> sym a = sym b -> a = b.
Proof.
  intros A B E. apply sym_ok, symbol_number in A. apply sym_ok, symbol_number in B. rewrite E in A. congruence.
Qed.
Lemma number_sym a : known a -> number_of (sym a) = Ok a.
Proof. intros A. now apply symbol_number, sym_ok. Qed.

Lemma mapM_ok {A B} (f : A -> result B) g l : (forall x, In x l -> f x = Ok (g x)) -> mapM f l = Ok (map g l).
Proof.
  induction l as [|x l IH]; intros H; [reflexivity|]. cbn. rewrite H by now left. cbn. rewrite IH; [reflexivity|]. intros y Hy. apply H. now right.
Qed.
Lemma foldM_ok {A B} (f : B -> A -> result B) g l : forall b, (forall x b, In x l -> f b x = Ok (g b x)) -> foldM f l b = Ok (fold_left g l b).
Proof.
  induction l as [|x l IH]; intros b H; [reflexivity|]. cbn. rewrite H by now left. cbn. apply IH. intros y c Hy. apply H. now right.
Qed.
Lemma fold_map {A B C} (f : C -> B -> C) (g : A -> B) l : forall b, fold_left f (map g l) b = fold_left (fun c x => f c (g x)) l b.
Proof. induction l as [|x l IH]; intros b; cbn; auto. Qed.
Lemma fold_flat {A B C} (f : C -> B -> C) (g : A -> list B) l : forall b, fold_left f (flat_map g l) b = fold_left (fun c x => fold_left f (g x) c) l b.
Proof. induction l as [|x l IH]; intros b; cbn; [reflexivity|]. rewrite fold_left_app. apply IH. Qed.

Lemma nodup_sym l : Forall known l -> NoDup l -> NoDup (map sym l).
Proof.
  intros K N. induction N as [|x l H N IH]; cbn; constructor; inversion K; subst; auto.
  intros Q. apply in_map_iff in Q. destruct Q as (y & E & Hy). rewrite Forall_forall in H3. apply sym_inj in E; auto. now subst.
Qed.

(** *** unique *)
Lemma uinsert_in x l a : In a (uinsert x l) <-> a = x \/ In a l.
Proof.
  induction l as [|y l IH]; cbn; [intuition|]. destruct (x <? y)%Z; cbn; [intuition|]. destruct (x =? y)%Z eqn:E; cbn.
  - apply Z.eqb_eq in E. subst. intuition.
  - rewrite IH. intuition.
Qed.
Lemma unique_in l a : In a (unique l) <-> In a l.
Proof. induction l as [|x l IH]; cbn; [tauto|]. rewrite uinsert_in, IH. intuition. Qed.

Inductive incr : list Z -> Prop :=
| incr_nil : incr []
| incr_cons x l : (forall y, In y l -> x < y)%Z -> incr l -> incr (x :: l).
Lemma uinsert_incr x l : incr l -> incr (uinsert x l).
Proof.
  induction 1 as [|y l H I IH]; cbn; [constructor; [intros y []|constructor]|]. destruct (x <? y)%Z eqn:E1.
  - constructor; [|now constructor]. intros z [<-|Hz]; [lia|]. specialize (H z Hz). lia.
  - destruct (x =? y)%Z eqn:E2; [now constructor|]. constructor; [|exact IH]. intros z Hz. apply uinsert_in in Hz. destruct Hz as [->|Hz]; [lia|auto].
Qed.
Lemma unique_incr l : incr (unique l).
Proof. induction l as [|x l IH]; cbn; [constructor|now apply uinsert_incr]. Qed.
Lemma incr_nodup l : incr l -> NoDup l.
Proof. induction 1 as [|x l H I IH]; constructor; auto. intros Q. specialize (H x Q). lia. Qed.
Lemma unique_nodup l : NoDup (unique l).
Proof. apply incr_nodup, unique_incr. Qed.

(** *** Indices *)
Definition idx (l : list Z) (a : Z) : nat := match index l a with Ok i => i | Err _ => 0 end.
Lemma index_from_ok l a : forall k, In a l -> exists i, index_from k l a = Ok (k + i) /\ nth_error l i = Some a.
Proof.
  induction l as [|x l IH]; intros k; cbn; [tauto|]. destruct (a =? x)%Z eqn:E.
  - intros _. apply Z.eqb_eq in E. subst. exists 0. rewrite Nat.add_0_r. auto.
  - intros [H|H]; [apply Z.eqb_neq in E; congruence|]. destruct (IH (S k) H) as (i & G & Q). exists (S i). rewrite G. split; [f_equal; lia|exact Q].
Qed.
Lemma index_ok l a : In a l -> index l a = Ok (idx l a) /\ nth_error l (idx l a) = Some a.
Proof. intros H. destruct (index_from_ok l a 0 H) as (i & G & Q). unfold idx, index. rewrite G. auto. Qed.
Lemma index_bad l a : ~ In a l -> index l a = Err ValueError.
Proof.
  intros H. unfold index. generalize 0 as k. induction l as [|x l IH]; intros k; cbn; [reflexivity|]. cbn in H.
  destruct (a =? x)%Z eqn:E; [apply Z.eqb_eq in E; intuition congruence|]. apply IH. tauto.
Qed.

(** *** Counting *)
Lemma lsum_cons x l : list_sum (x :: l) = x + list_sum l.
Proof. reflexivity. Qed.
Lemma count_nil_in a l : ~ In a l -> count a l = 0.
Proof.
  intros H. unfold count. replace (filter (Z.eqb a) l) with (@nil Z); [reflexivity|]. symmetry. induction l as [|x l IH]; [reflexivity|]. cbn. cbn in H.
  destruct (a =? x)%Z eqn:E; [apply Z.eqb_eq in E; intuition congruence|]. apply IH. tauto.
Qed.

Lemma count_cons a x t : count a (x :: t) = (if (a =? x)%Z then 1 else 0) + count a t.
Proof. unfold count. cbn. destruct (a =? x)%Z; reflexivity. Qed.

Lemma one_hit x l : NoDup l -> list_sum (map (fun a => if (a =? x)%Z then 1 else 0) l) = if existsb (Z.eqb x) l then 1 else 0.
Proof.
  induction 1 as [|y l H N IH]; [reflexivity|]. cbn [map existsb]. rewrite lsum_cons, IH, (Z.eqb_sym x y). destruct (y =? x)%Z eqn:E; cbn [orb]; [|reflexivity].
  apply Z.eqb_eq in E. subst. replace (existsb (Z.eqb x) l) with false; [reflexivity|]. symmetry. apply Bool.not_true_iff_false. intros Q.
  apply existsb_exists in Q. destruct Q as (z & Hz & Q). apply Z.eqb_eq in Q. now subst.
Qed.

Lemma sum_plus {A} (f g : A -> nat) l : list_sum (map (fun a => f a + g a) l) = list_sum (map f l) + list_sum (map g l).
Proof. induction l as [|x l IH]; [reflexivity|]. cbn [map]. rewrite !lsum_cons, IH. lia. Qed.

Lemma count_total t l : NoDup l -> (forall a, In a t -> In a l) -> list_sum (map (fun a => count a t) l) = length t.
Proof.
  intros N. induction t as [|x t IH]; intros H.
  - clear H. induction N as [|x l _ _ IH]; [reflexivity|]. cbn [map]. rewrite lsum_cons, IH. reflexivity.
  - cbn [length]. erewrite map_ext by (intros a; apply count_cons). rewrite sum_plus, one_hit by exact N.
    rewrite IH by (intros a Ha; apply H; now right). replace (existsb (Z.eqb x) l) with true; [lia|]. symmetry. apply existsb_exists.
    exists x. split; [apply H; now left|apply Z.eqb_refl].
Qed.

(** ** Distinct entries and groups *)
Section Groups.
Context {A : Type}.
Variable same : A -> A -> bool.
Hypothesis same_refl : forall x, same x x = true.
Hypothesis same_sym : forall x y, same x y = same y x.
Hypothesis same_trans : forall x y z, same x y = true -> same y z = true -> same x z = true.

Lemma filter_filter {B} (p q : B -> bool) l : filter p (filter q l) = filter (fun x => q x && p x) l.
Proof. induction l as [|x l IH]; [reflexivity|]. cbn. destruct (q x); cbn; [destruct (p x); now rewrite IH|exact IH]. Qed.

Lemma distinct_filter P l : (forall x y, same x y = true -> P x = P y) -> distinct same (filter P l) = filter P (distinct same l).
Proof.
  intros C. induction l as [|x l IH]; [reflexivity|]. cbn. destruct (P x) eqn:E; cbn; rewrite IH.
  - f_equal. rewrite !filter_filter. apply filter_ext. intros y. apply andb_comm.
  - rewrite filter_filter. apply filter_ext. intros y. destruct (same x y) eqn:Q; cbn; [|reflexivity]. rewrite <- (C x y Q). exact E.
Qed.

Lemma filter_split {B} (p : B -> bool) l : Permutation (filter p l ++ filter (fun x => negb (p x)) l) l.
Proof.
  induction l as [|x l IH]; [constructor|]. cbn. destruct (p x); cbn; [now constructor|].
  etransitivity; [symmetry; apply Permutation_middle|]. now constructor.
Qed.

Lemma filter_shorter {B} (p : B -> bool) l : length (filter p l) <= length l.
Proof. induction l as [|x l IH]; [constructor|]. cbn. destruct (p x); cbn; lia. Qed.

Lemma groups_perm n : forall l, length l <= n -> Permutation (concat (map (fun r => filter (same r) l) (distinct same l))) l.
Proof.
  induction n as [|n IH]; intros l L; [destruct l; [constructor|cbn in L; lia]|]. destruct l as [|x l]; [constructor|].
  cbn [distinct map concat]. cbn [filter]. rewrite same_refl. cbn [app]. constructor.
  set (P := fun y => negb (same x y)).
  assert (C : forall y z, same y z = true -> P y = P z).
  { intros y z Q. unfold P. f_equal. destruct (same x y) eqn:E1, (same x z) eqn:E2; try reflexivity.
    - rewrite (same_trans x y z E1 Q) in E2. discriminate.
    - rewrite (same_trans x z y E2) in E1; [discriminate|now rewrite same_sym]. }
  rewrite <- (distinct_filter P l C).
  assert (E : map (fun r => if same r x then x :: filter (same r) l else filter (same r) l) (distinct same (filter P l)) =
              map (fun r => filter (same r) (filter P l)) (distinct same (filter P l))).
  { apply map_ext_in. intros r Hr. apply distinct_in in Hr. apply filter_In in Hr. destruct Hr as [_ Hr]. unfold P in Hr.
    apply Bool.negb_true_iff in Hr. rewrite same_sym, Hr. rewrite filter_filter. apply filter_ext. intros y.
    destruct (same r y) eqn:Q; [|now rewrite andb_false_r]. rewrite <- (C r y Q). unfold P. now rewrite Hr. }
  rewrite E. etransitivity; [|apply (filter_split (same x) l)]. apply Permutation_app_head.
  apply IH. cbn in L. pose proof (filter_shorter P l). change (length (filter P l) <= n). lia.
Qed.

Lemma groups_all l : Permutation (concat (map (fun r => filter (same r) l) (distinct same l))) l.
Proof. apply (groups_perm (length l)). lia. Qed.

Lemma distinct_map {B} (eqb : B -> B -> bool) (f : A -> B) l : (forall x y, In x l -> In y l -> same x y = eqb (f x) (f y)) ->
  distinct eqb (map f l) = map f (distinct same l).
Proof.
  induction l as [|x l IH]; intros H; [reflexivity|]. cbn. f_equal. rewrite IH by (intros; apply H; now right).
  assert (G : forall d, (forall y, In y d -> In y l) -> filter (fun y => negb (eqb (f x) y)) (map f d) = map f (filter (fun y => negb (same x y)) d)).
  { induction d as [|y d IHd]; intros D; [reflexivity|]. cbn. rewrite <- H by (auto using in_eq; right; apply D; now left).
    destruct (same x y); cbn; rewrite IHd by (intros; apply D; now right); reflexivity. }
  apply G. intros y Hy. now apply distinct_in in Hy.
Qed.

End Groups.

Lemma sum_concat {A} (g : A -> nat) ls : list_sum (map (fun l => list_sum (map g l)) ls) = list_sum (map g (concat ls)).
Proof.
  induction ls as [|l ls IH]; [reflexivity|]. cbn [map concat]. rewrite lsum_cons, map_app, list_sum_app, IH. reflexivity.
Qed.
Lemma sum_perm {A} (g : A -> nat) l l' : Permutation l l' -> list_sum (map g l) = list_sum (map g l').
Proof. induction 1; cbn [map]; rewrite ?lsum_cons; lia. Qed.

(** *** Counter *)
Lemma distinct_snoc l x : distinct String.eqb (l ++ [x]) = distinct String.eqb l ++ (if existsb (String.eqb x) l then [] else [x]).
Proof.
  induction l as [|y l IH]; [reflexivity|]. cbn. rewrite IH, filter_app. cbn. f_equal. f_equal.
  rewrite (String.eqb_sym x y). destruct (existsb (String.eqb x) l); cbn; [now rewrite orb_true_r|]. rewrite orb_false_r. destruct (y =? x)%string; reflexivity.
Qed.
Lemma distinct_str_nodup l : NoDup (distinct String.eqb l).
Proof.
  induction l as [|x l IH]; cbn; constructor.
  - intros H. apply filter_In in H. rewrite String.eqb_refl in H. destruct H. discriminate.
  - now apply NoDup_filter.
Qed.
Lemma in_distinct_str l x : In x (distinct String.eqb l) <-> In x l.
Proof.
  split; [apply distinct_in|]. induction l as [|y l IH]; cbn; [auto|]. intros [H|H]; [auto|]. destruct (String.eqb y x) eqn:E; [left; now apply String.eqb_eq|].
  right. apply filter_In. rewrite E. auto.
Qed.

Definition scount (x : string) (l : list string) : nat := length (filter (String.eqb x) l).
Lemma scount_snoc x y l : scount x (l ++ [y]) = scount x l + (if String.eqb x y then 1 else 0).
Proof. unfold scount. rewrite filter_app, app_length. cbn. destruct (String.eqb x y); reflexivity. Qed.

Lemma dget_map (f : string -> nat) ks x : In x ks -> dget String.eqb (map (fun k => (k, f k)) ks) x = Ok (f x).
Proof.
  induction ks as [|k ks IH]; cbn; [tauto|]. destruct (x =? k)%string eqn:E; [apply String.eqb_eq in E; now subst|].
  intros [H|H]; [subst; rewrite String.eqb_refl in E; discriminate|auto].
Qed.
Lemma dset_map (f : string -> nat) ks x v : NoDup ks -> In x ks ->
  dset String.eqb (map (fun k => (k, f k)) ks) x v = map (fun k => (k, if String.eqb x k then v else f k)) ks.
Proof.
  induction ks as [|k ks IH]; cbn; [tauto|]. intros N [H|H]; inversion N; subst.
  - rewrite String.eqb_refl. f_equal. apply map_ext_in. intros a Ha. destruct (x =? a)%string eqn:E; [|reflexivity].
    apply String.eqb_eq in E. now subst.
  - destruct (x =? k)%string eqn:E; [apply String.eqb_eq in E; now subst|]. f_equal. auto.
Qed.

Lemma counter_eq l : counter l = map (fun k => (k, scount k l)) (distinct String.eqb l).
Proof.
  induction l as [|x l IH] using rev_ind; [reflexivity|]. unfold counter in *. rewrite fold_left_app. cbn [fold_left]. rewrite IH. clear IH.
  rewrite distinct_snoc. destruct (existsb (String.eqb x) l) eqn:E.
  - apply existsb_exists in E. destruct E as (y & Hy & E). apply String.eqb_eq in E. subst y. rewrite app_nil_r.
    apply in_distinct_str in Hy. rewrite dget_map by exact Hy. rewrite dset_map by (auto using distinct_str_nodup).
    apply map_ext. intros k. rewrite scount_snoc, (String.eqb_sym x k). destruct (k =? x)%string eqn:Q; [|f_equal; lia]. apply String.eqb_eq in Q. subst. f_equal. lia.
  - assert (N : ~ In x l). { intros H. apply Bool.not_true_iff_false in E. apply E. apply existsb_exists. exists x. split; [exact H|apply String.eqb_refl]. }
    assert (N' : ~ In x (map fst (map (fun k => (k, scount k l)) (distinct String.eqb l)))).
    { rewrite map_map. cbn. rewrite map_id, in_distinct_str. exact N. }
    assert (dget String.eqb (map (fun k => (k, scount k l)) (distinct String.eqb l)) x = Err KeyError) as -> by (apply dget_missing; [apply String.eqb_eq|exact N']).
    rewrite dset_new by (try apply String.eqb_eq; exact N'). rewrite map_app. cbn. f_equal.
    + apply map_ext_in. intros k Hk. apply distinct_in in Hk. rewrite scount_snoc. destruct (k =? x)%string eqn:Q; [apply String.eqb_eq in Q; now subst|]. f_equal. lia.
    + rewrite scount_snoc, String.eqb_refl. assert (scount x l = 0) as ->; [|reflexivity]. unfold scount.
      replace (filter (String.eqb x) l) with (@nil string); [reflexivity|]. symmetry. clear - N. induction l as [|y l IH]; [reflexivity|]. cbn. cbn in N.
      destruct (x =? y)%string eqn:Q; [apply String.eqb_eq in Q; intuition congruence|]. apply IH. tauto.
Qed.

(** ** One file *)
Section Files.
Context {F : Type}.
Variable an : F -> Z.
Notation raw := (@raw F).
Notation head := (head_numbers an).
Notation nums := (numbers an).

(** What [shaped] means, array by array. *)
Definition width_ok (m : raw) (a : list (list F)) (w : nat) : Prop := length a = frames m /\ Forall (fun r => length r = w) a.

Lemma shaped_facts (m : raw) : shaped m -> exists n, 0 < frames m /\ length (head m) = n /\
  (forall k, k < 5 -> get (r_info m) k = Ok (array m k)) /\
  width_ok m (array m 0) 9 /\ width_ok m (array m 1) n /\ width_ok m (array m 2) (3 * n) /\ width_ok m (array m 3) 1 /\ width_ok m (array m 4) (3 * n) /\
  optional (r_virial m) (get (r_info m) 5) = Ok (virial_of m) /\
  optional (r_eatom m) (get (r_info m) (if r_virial m then 6 else 5)) = Ok (eatom_of m) /\
  optional (r_magmom m) (get (r_info m) (if r_virial m && r_eatom m then 7 else if r_virial m || r_eatom m then 6 else 5)) = Ok (magmom_of m) /\
  (forall a, virial_of m = Some a -> width_ok m a 9) /\ (forall a, eatom_of m = Some a -> width_ok m a n) /\ (forall a, magmom_of m = Some a -> width_ok m a n).
Proof.
  intros (n & P & S). exists n. split; [exact P|]. unfold head_numbers, numbers, virial_of, eatom_of, magmom_of, width_ok, frames, array, optional in *.
  destruct m as [v e g info]. cbn [r_virial r_eatom r_magmom r_info] in *.
  repeat match goal with H : Forall2 _ _ (_ :: _) |- _ => inversion H; subst; clear H | H : Forall2 _ _ ([_; _; _; _; _] ++ _) |- _ => cbn [app] in H end.
  assert (L : length (nth 0 (map (map an) x0) []) = n).
  { destruct x0 as [|r x0]; cbn in *; [lia|]. rewrite map_length. match goal with H : _ /\ Forall _ (r :: x0) |- _ => destruct H as [_ H]; inversion H; subst end. reflexivity. }
  destruct v, e, g; cbn in *;
  repeat match goal with H : Forall2 _ _ (_ :: _) |- _ => inversion H; subst; clear H end;
  match goal with H : Forall2 _ _ [] |- _ => inversion H; subst; clear H end;
  (split; [first [exact L | reflexivity]|]); (split; [intros [|[|[|[|[|k]]]]] Hk; cbn; reflexivity || lia|]); (do 5 (split; [assumption|])); (do 3 (split; [reflexivity|]));
  (split; [|split]); intros a Q; try discriminate; assert (Q' : a = a) by reflexivity; injection Q as <-; assumption.
Qed.

Definition dict_of (l : list Z) (m : raw) : list (string * nat) := map (fun a => (sym a, count a (head m))) l.

(** The set read with a shared element order. *)
Definition build (l : list Z) (m : raw) : infoset :=
  mkInfo (array m 0) (map (map (idx l)) (nums m)) (array m 2) (array m 3) (array m 4) (dict_of l m) (formula_of (dict_of l m)) (frames m)
         (virial_of m) (eatom_of m) (magmom_of m).

Lemma own_dict_ok (m : raw) : shaped m -> Forall known (head m) -> own_dict (nums m) = Ok (dict_of (unique (head m)) m).
Proof.
  intros S K. destruct (shaped_facts m S) as (n & P & _ & _ & _ & [L1 _] & _). unfold own_dict.
  assert (get (nums m) 0 = Ok (head m)) as ->.
  { unfold head_numbers, get. unfold numbers. rewrite nth_error_map. destruct (array m 1) as [|r a]; [cbn in L1; lia|]. reflexivity. }
  cbn [bind]. rewrite (foldM_ok _ (fun d t => dset String.eqb d (sym t) (count t (head m)))).
  - rewrite (fold_dset_new String.eqb String.eqb_eq sym (fun t => count t (head m))); [reflexivity|]. cbn.
    apply nodup_sym; [|apply unique_nodup]. apply Forall_forall. intros a Ha. rewrite unique_in in Ha. rewrite Forall_forall in K. auto.
  - intros t d Ht. rewrite unique_in in Ht. rewrite Forall_forall in K. rewrite sym_ok by auto. reflexivity.
Qed.

Lemma dset_same (d : list (string * nat)) k v : dget String.eqb d k = Ok v -> dset String.eqb d k v = d.
Proof.
  induction d as [|[k' v'] d IH]; cbn; [discriminate|]. destruct (k =? k')%string eqn:E; [intros H; congruence|]. intros H. now rewrite IH.
Qed.
Lemma dset_twice (d : list (string * nat)) k v w : dset String.eqb (dset String.eqb d k v) k w = dset String.eqb d k w.
Proof.
  induction d as [|[k' v'] d IH]; cbn; [now rewrite String.eqb_refl|]. destruct (k =? k')%string eqn:E; cbn; rewrite E; [reflexivity|now rewrite IH].
Qed.

Lemma count_loop a t : known a -> forall (d : list (string * nat)) v, dget String.eqb d (sym a) = Ok v ->
  foldM (fun d x => if (x =? a)%Z then bind (symbol_of a) (fun s => bind (dget String.eqb d s) (fun v => Ok (dset String.eqb d s (v + 1)))) else Ok d) t d =
  Ok (dset String.eqb d (sym a) (v + count a t)).
Proof.
  intros K. rewrite (sym_ok a K). cbn [bind]. induction t as [|x t IH]; intros d v G; cbn [foldM].
  - cbn. rewrite Nat.add_0_r, dset_same by exact G. reflexivity.
  - rewrite count_cons, (Z.eqb_sym a x). destruct (x =? a)%Z; cbn [bind].
    + rewrite G. cbn [bind]. rewrite (IH _ (v + 1)).
      * rewrite dset_twice. do 2 f_equal. lia.
      * rewrite dget_dset by apply String.eqb_eq. now rewrite String.eqb_refl.
    + rewrite (IH _ v G). reflexivity.
Qed.

Lemma dset_at (pre post : list (string * nat)) k v w : ~ In k (map fst pre) -> dset String.eqb (pre ++ (k, v) :: post) k w = pre ++ (k, w) :: post.
Proof.
  induction pre as [|[k' v'] pre IH]; cbn; intros N; [now rewrite String.eqb_refl|]. destruct (k =? k')%string eqn:E; [apply String.eqb_eq in E; intuition congruence|].
  rewrite IH; [reflexivity|tauto].
Qed.
Lemma dget_at (pre post : list (string * nat)) k v : ~ In k (map fst pre) -> dget String.eqb (pre ++ (k, v) :: post) k = Ok v.
Proof.
  induction pre as [|[k' v'] pre IH]; cbn; intros N; [now rewrite String.eqb_refl|]. destruct (k =? k')%string eqn:E; [apply String.eqb_eq in E; intuition congruence|].
  apply IH; tauto.
Qed.

Lemma shared_dict_ok (l : list Z) (m : raw) : shaped m -> NoDup l -> Forall known l -> shared_dict l (nums m) = Ok (dict_of l m).
Proof.
  intros S N K. destruct (shaped_facts m S) as (n & P & _ & _ & _ & [L1 _] & _). unfold shared_dict.
  rewrite (foldM_ok _ (fun d a => dset String.eqb d (sym a) 0)).
  2:{ intros a d Ha. rewrite Forall_forall in K. rewrite sym_ok by auto. reflexivity. }
  rewrite (fold_dset_new String.eqb String.eqb_eq sym (fun _ => 0)) by (cbn; now apply nodup_sym). cbn [bind app].
  assert (G0 : get (nums m) 0 = Ok (head m)).
  { unfold head_numbers, get. unfold numbers. rewrite nth_error_map. destruct (array m 1) as [|r a]; [cbn in L1; lia|]. reflexivity. }
  assert (forall pre post, l = pre ++ post ->
    foldM (fun d a => bind (get (nums m) 0) (fun t0 => foldM (fun d t => if (t =? a)%Z
             then bind (symbol_of a) (fun s => bind (dget String.eqb d s) (fun v => Ok (dset String.eqb d s (v + 1)))) else Ok d) t0 d)) post
      (dict_of pre m ++ map (fun a => (sym a, 0)) post) = Ok (dict_of l m)) as G; [|exact (G [] l eq_refl)].
  rewrite G0. cbn [bind]. intros pre post. revert pre. induction post as [|a post IH]; intros pre E.
  - cbn. rewrite app_nil_r in *. now subst.
  - cbn [foldM map].
    assert (NI : ~ In (sym a) (map fst (dict_of pre m))).
    { unfold dict_of. rewrite map_map. cbn. intros Q. apply in_map_iff in Q. destruct Q as (b & Q & Hb).
      rewrite Forall_forall in K. apply sym_inj in Q; [|apply K; rewrite E; apply in_or_app; auto|apply K; rewrite E; apply in_or_app; cbn; auto].
      subst b. rewrite E in N. apply NoDup_remove_2 in N. apply N. apply in_or_app. auto. }
    rewrite (count_loop a (head m)) with (v := 0).
    + cbn [bind]. rewrite dset_at by exact NI. specialize (IH (pre ++ [a])). rewrite <- app_assoc in IH. specialize (IH E).
      assert (Q : dict_of (pre ++ [a]) m = dict_of pre m ++ [(sym a, count a (head m))]) by (unfold dict_of; now rewrite map_app).
      rewrite Q, <- app_assoc in IH. exact IH.
    + rewrite Forall_forall in K. apply K. rewrite E. apply in_or_app. cbn; auto.
    + now apply dget_at.
Qed.

Lemma get_seq {A B} (f : A -> result B) l : mapM (fun i => bind (get l i) f) (seq 0 (length l)) = mapM f l.
Proof.
  assert (forall pre post, l = pre ++ post -> mapM (fun i => bind (get l i) f) (seq (length pre) (length post)) = mapM f post) as G; [|exact (G [] l eq_refl)].
  intros pre post. revert pre. induction post as [|a post IH]; intros pre E; [reflexivity|]. cbn [length seq mapM].
  assert (get l (length pre) = Ok a) as -> by (unfold get; rewrite E, nth_error_app2, Nat.sub_diag by lia; reflexivity). cbn [bind].
  specialize (IH (pre ++ [a])). rewrite app_length, Nat.add_comm in IH. cbn [length plus] in IH. rewrite IH; [reflexivity|]. rewrite <- app_assoc. exact E.
Qed.
Lemma mapM_bad {A B} (f : A -> result B) e l : (forall a, In a l -> (exists b, f a = Ok b) \/ f a = Err e) -> Exists (fun a => f a = Err e) l -> mapM f l = Err e.
Proof.
  intros H X. induction X as [a l X|a l X IH]; cbn; [now rewrite X|]. destruct (H a) as [[b ->]| ->]; [now left| |reflexivity].
  cbn. rewrite IH; [reflexivity|]. intros c Hc. apply H. now right.
Qed.
Lemma row_index_dec (l : list Z) t : (mapM (index l) t = Ok (map (idx l) t) /\ forall a, In a t -> In a l) \/
  (mapM (index l) t = Err ValueError /\ Exists (fun a => ~ In a l) t).
Proof.
  induction t as [|a t IH]; [left; split; [reflexivity|intros a []]|]. cbn. destruct (in_dec Z.eq_dec a l) as [H|H].
  - destruct (index_ok l a H) as [-> _]. cbn. destruct IH as [[-> Q]|[-> Q]]; cbn.
    + left. split; [reflexivity|]. intros b [<-|Hb]; auto.
    + right. split; [reflexivity|now right].
  - right. rewrite index_bad by exact H. split; [reflexivity|now left].
Qed.

Lemma row_index (l : list Z) t : (forall a, In a t -> In a l) -> mapM (index l) t = Ok (map (idx l) t).
Proof. intros H. apply mapM_ok. intros a Ha. apply index_ok. auto. Qed.

Lemma rows_index (l : list Z) (m : raw) n : length (nums m) = n -> (forall t a, In t (nums m) -> In a t -> In a l) ->
  mapM (fun i => bind (get (nums m) i) (mapM (index l))) (seq 0 n) = Ok (map (map (idx l)) (nums m)).
Proof.
  intros <- H. rewrite get_seq. apply mapM_ok. intros t Ht. apply row_index. intros a Ha. eapply H; eassumption.
Qed.

Lemma types_equal (l : list Z) (m : raw) n : width_ok m (array m 1) n -> equal_lengths (map (map (idx l)) (nums m)).
Proof.
  intros [_ W]. intros x y Hx Hy. apply in_map_iff in Hx, Hy. destruct Hx as (x' & <- & Hx), Hy as (y' & <- & Hy).
  unfold numbers in Hx, Hy. apply in_map_iff in Hx, Hy. destruct Hx as (x0 & <- & Hx), Hy as (y0 & <- & Hy). rewrite !map_length.
  rewrite Forall_forall in W. rewrite (W _ Hx), (W _ Hy). reflexivity.
Qed.

Lemma read_shared (l : list Z) (m : raw) : shaped m -> NoDup l -> Forall known l -> (forall t a, In t (nums m) -> In a t -> In a l) ->
  from_file an m (Some l) = Ok (build l m).
Proof.
  intros S N K C. destruct (shaped_facts m S) as (n & P & L & G & W0 & W1 & W2 & W3 & W4 & Ov & Oe & Om & _).
  unfold from_file. rewrite !G by lia. cbn [bind]. rewrite Ov, Oe, Om. cbn [bind]. fold (nums m).
  rewrite shared_dict_ok by assumption. cbn [bind snd fst].
  rewrite (rows_index l m); [|unfold numbers; rewrite map_length; destruct W1, W0; congruence|exact C]. cbn [bind].
  rewrite np_stack_ok by (eapply types_equal; exact W1). reflexivity.
Qed.

Lemma read_own (m : raw) : shaped m -> Forall known (head m) -> (forall t a, In t (nums m) -> In a t -> In a (head m)) ->
  exists s, from_file an m None = Ok s /\ is_dict s = dict_of (unique (head m)) m.
Proof.
  intros S K C. destruct (shaped_facts m S) as (n & P & L & G & W0 & W1 & W2 & W3 & W4 & Ov & Oe & Om & _).
  unfold from_file. rewrite !G by lia. cbn [bind]. rewrite Ov, Oe, Om. cbn [bind]. fold (nums m).
  rewrite own_dict_ok by assumption. cbn [bind].
  assert (mapM (fun p => number_of (fst p)) (dict_of (unique (head m)) m) = Ok (unique (head m))) as ->.
  { unfold dict_of. assert (Forall known (unique (head m))) as U.
    { apply Forall_forall. intros a Ha. rewrite unique_in in Ha. rewrite Forall_forall in K. auto. }
    induction U as [|a u Ka U IH]; [reflexivity|]. cbn [map mapM fst]. rewrite number_sym by exact Ka. cbn [bind]. rewrite IH. reflexivity. }
  cbn [bind snd fst].
  rewrite (rows_index (unique (head m)) m); [|unfold numbers; rewrite map_length; destruct W1, W0; congruence|].
  2:{ intros t a Ht Ha. apply unique_in. eapply C; eassumption. }
  cbn [bind]. rewrite np_stack_ok by (eapply types_equal; exact W1). cbn [bind]. eexists. split; [reflexivity|reflexivity].
Qed.

(** An element that appears after the first frame only. *)
Lemma read_open (m : raw) : shaped m -> Forall known (head m) -> ~ (forall t a, In t (nums m) -> In a t -> In a (head m)) ->
  from_file an m None = Err ValueError.
Proof.
  intros S K C. destruct (shaped_facts m S) as (n & P & L & G & W0 & W1 & W2 & W3 & W4 & Ov & Oe & Om & _).
  unfold from_file. rewrite !G by lia. cbn [bind]. rewrite Ov, Oe, Om. cbn [bind]. fold (nums m).
  rewrite own_dict_ok by assumption. cbn [bind].
  assert (mapM (fun p => number_of (fst p)) (dict_of (unique (head m)) m) = Ok (unique (head m))) as ->.
  { unfold dict_of. assert (Forall known (unique (head m))) as U.
    { apply Forall_forall. intros a Ha. rewrite unique_in in Ha. rewrite Forall_forall in K. auto. }
    induction U as [|a u Ka U IH]; [reflexivity|]. cbn [map mapM fst]. rewrite number_sym by exact Ka. cbn [bind]. rewrite IH. reflexivity. }
  cbn [bind snd fst].
  assert (mapM (fun i => bind (get (nums m) i) (mapM (index (unique (head m))))) (seq 0 (length (array m 0))) = Err ValueError) as ->; [|reflexivity].
  assert (L0 : length (array m 0) = length (nums m)). { unfold numbers. rewrite map_length. destruct W0, W1. congruence. }
  rewrite L0, get_seq. apply mapM_bad.
  - intros t _. destruct (row_index_dec (unique (head m)) t) as [[Q _]|[Q _]]; eauto.
  - destruct (Exists_dec (fun t => mapM (index (unique (head m))) t = Err ValueError) (nums m)) as [X|X]; [|exact X|].
    + intros t. destruct (mapM (index (unique (head m))) t) as [b|[]]; (left; reflexivity) || (right; discriminate).
    + exfalso. apply C. intros t a Ht Ha. destruct (row_index_dec (unique (head m)) t) as [[_ Q]|[Q _]]; [apply unique_in; auto|].
      exfalso. apply X. apply Exists_exists. eauto.
Qed.
End Files.
