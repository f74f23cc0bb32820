(** Lemmas about dictionaries and the element tables. *)
From Coq Require Import String Ascii.
From Verif Require Import Base ElementModel.

Section Dict.
Context {K V : Type}.
Variable eqb : K -> K -> bool.
Hypothesis eqb_eq : forall a b, eqb a b = true <-> a = b.

Lemma eqb_refl' a : eqb a a = true.
Proof. now apply eqb_eq. Qed.
Lemma eqb_neq' a b : a <> b -> eqb a b = false.
Proof. intros N. destruct (eqb a b) eqn:E; [|reflexivity]. apply eqb_eq in E. contradiction. Qed.

Lemma dget_in (d : list (K * V)) k v : dget eqb d k = Ok v -> In (k, v) d.
Proof.
  induction d as [|[k' v'] d IH]; cbn; [discriminate|]. destruct (eqb k k') eqn:E.
  - apply eqb_eq in E. intros H. left. congruence.
  - auto.
Qed.

Lemma in_dget (d : list (K * V)) k v : NoDup (map fst d) -> In (k, v) d -> dget eqb d k = Ok v.
Proof.
  induction d as [|[k' v'] d IH]; cbn; [tauto|]. intros N [H|H]; inversion N; subst.
  - replace k with k' by congruence. rewrite eqb_refl'. congruence.
  - rewrite eqb_neq'; [auto|]. intros ->. apply H2. apply (in_map fst) in H. exact H.
Qed.

Lemma dget_missing (d : list (K * V)) k : dget eqb d k = Err KeyError <-> ~ In k (map fst d).
Proof.
  induction d as [|[k' v'] d IH]; cbn; [tauto|]. destruct (eqb k k') eqn:E.
  - apply eqb_eq in E. split; [discriminate|]. intros H. exfalso. apply H. now left.
  - rewrite IH. split; [|tauto]. intros H [Q|Q]; [|tauto]. subst. rewrite eqb_refl' in E. discriminate.
Qed.

Lemma dget_err (d : list (K * V)) k e : dget eqb d k = Err e -> e = KeyError.
Proof. induction d as [|[k' v'] d IH]; cbn; [congruence|]. destruct (eqb k k'); [discriminate|auto]. Qed.

Lemma dset_new (d : list (K * V)) k v : ~ In k (map fst d) -> dset eqb d k v = d ++ [(k, v)].
Proof.
  induction d as [|[k' v'] d IH]; cbn; [reflexivity|]. intros H. rewrite eqb_neq'; [|intros ->; tauto].
  rewrite IH by tauto. reflexivity.
Qed.

Lemma dset_old (d : list (K * V)) k v : In k (map fst d) -> map fst (dset eqb d k v) = map fst d.
Proof.
  induction d as [|[k' v'] d IH]; cbn; [tauto|]. destruct (eqb k k') eqn:E; [reflexivity|]. cbn.
  intros [H|H]; [|rewrite IH; auto]. subst. rewrite eqb_refl' in E. discriminate.
Qed.

Lemma dget_dset (d : list (K * V)) k v k' : dget eqb (dset eqb d k v) k' = if eqb k' k then Ok v else dget eqb d k'.
Proof.
  induction d as [|[a b] d IH]; cbn; [reflexivity|]. destruct (eqb k a) eqn:E; cbn.
  - apply eqb_eq in E. subst. destruct (eqb k' a); reflexivity.
  - rewrite IH. destruct (eqb k' a) eqn:E2; [|reflexivity]. apply eqb_eq in E2. subst.
    destruct (eqb a k) eqn:E3; [|reflexivity]. apply eqb_eq in E3. subst. rewrite eqb_refl' in E. discriminate.
Qed.

(** Storing new keys one after another. *)
Lemma fold_dset_new {A} (f : A -> K) (g : A -> V) l : forall d, NoDup (map fst d ++ map f l) ->
  fold_left (fun d x => dset eqb d (f x) (g x)) l d = d ++ map (fun x => (f x, g x)) l.
Proof.
  induction l as [|x l IH]; intros d N; cbn; [now rewrite app_nil_r|]. cbn in N.
  rewrite dset_new.
  - rewrite IH, <- app_assoc; [reflexivity|]. rewrite map_app. cbn. now rewrite <- app_assoc.
  - apply NoDup_remove_2 in N. intros H. apply N. apply in_or_app. now left.
Qed.
End Dict.

Lemma symbol_known : forallb (fun p => match number_of (snd p) with Ok n => (n =? fst p)%Z | Err _ => false end) atomic_number2specie = true.
Proof. vm_compute. reflexivity. Qed.

Lemma number_known : forallb (fun p => match symbol_of (snd p) with Ok s => String.eqb s (fst p) | Err _ => false end) specie2atomic_number = true.
Proof. vm_compute. reflexivity. Qed.

Lemma symbol_number n s : symbol_of n = Ok s -> number_of s = Ok n.
Proof.
  intros H. apply dget_in in H; [|apply Z.eqb_eq]. pose proof symbol_known as K. rewrite forallb_forall in K.
  specialize (K _ H). cbn [fst snd] in K. destruct (number_of s); [|discriminate]. apply Z.eqb_eq in K. now subst.
Qed.

Lemma number_symbol n s : number_of s = Ok n -> symbol_of n = Ok s.
Proof.
  intros H. apply dget_in in H; [|apply String.eqb_eq]. pose proof number_known as K. rewrite forallb_forall in K.
  specialize (K _ H). cbn [fst snd] in K. destruct (symbol_of n); [|discriminate]. apply String.eqb_eq in K. now subst.
Qed.

Lemma number_keys : map fst atomic_number2specie = map Z.of_nat (seq 0 119).
Proof. vm_compute. reflexivity. Qed.

Lemma symbol_domain n : (exists s, symbol_of n = Ok s) <-> (0 <= n <= 118)%Z.
Proof.
  split.
  - intros [s H]. apply dget_in in H; [|apply Z.eqb_eq]. apply (in_map fst) in H. rewrite number_keys in H.
    apply in_map_iff in H. destruct H as (k & E & Hk). cbn in E. apply in_seq in Hk. lia.
  - intros H. destruct (symbol_of n) as [s|e] eqn:E; [eauto|]. assert (e = KeyError) by (eapply dget_err; exact E). subst.
    exfalso. apply dget_missing in E; [|apply Z.eqb_eq]. apply E. rewrite number_keys. apply in_map_iff.
    exists (Z.to_nat n). split; [lia|]. apply in_seq. lia.
Qed.

Lemma symbol_unknown n : ~ (0 <= n <= 118)%Z -> symbol_of n = Err KeyError.
Proof.
  intros H. destruct (symbol_of n) as [s|e] eqn:E.
  - exfalso. apply H, symbol_domain. eauto.
  - f_equal. eapply dget_err. exact E.
Qed.

Lemma number_range s n : number_of s = Ok n -> (0 <= n <= 118)%Z.
Proof. intros H. apply symbol_domain. exists s. now apply number_symbol. Qed.

Lemma number_unknown s : (forall n, (0 <= n <= 118)%Z -> symbol_of n <> Ok s) -> number_of s = Err KeyError.
Proof.
  intros H. destruct (number_of s) as [n|e] eqn:E.
  - exfalso. apply (H n); [eapply number_range; eassumption|now apply number_symbol].
  - f_equal. eapply dget_err. exact E.
Qed.

(** Symbols begin with an upper-case letter and contain no digit before the sign of the dummy. *)
Definition starts_upper (s : string) : bool :=
  match s with String c _ => (65 <=? nat_of_ascii c) && (nat_of_ascii c <=? 90) | EmptyString => false end.
Lemma symbols_upper n s : symbol_of n = Ok s -> starts_upper s = true.
Proof.
  intros H. apply dget_in in H; [|apply Z.eqb_eq].
  assert (forallb (fun p => starts_upper (snd p)) atomic_number2specie = true) as K by (vm_compute; reflexivity).
  rewrite forallb_forall in K. exact (K _ H).
Qed.

Definition row_ends : list (Z * string) := [(2, "He"); (10, "Ne"); (18, "Ar"); (36, "Kr"); (54, "Xe"); (86, "Rn"); (118, "Og")]%Z%string.
Lemma rows_end_in_noble_gases : Forall (fun p => symbol_of (fst p) = Ok (snd p)) row_ends.
Proof. repeat constructor. Qed.
