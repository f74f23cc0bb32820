(** Proofs about saving collections and information sets and selecting frames. *)
From Coq Require Import String ZifyBool ZifyNat FinFun.
From Verif Require Import Base ElementModel ElementProofs DataModel DataSpec DataText.

(** ** Slices and pieces *)
Lemma clip_nat n a : clip n (Z.of_nat a) = min a n.
Proof. unfold clip. destruct (Z.of_nat a <? 0)%Z eqn:E; lia. Qed.

Lemma pyslice_nat {A} a b (l : list A) : a <= b -> pyslice (Z.of_nat a) (Z.of_nat b) l = firstn (b - a) (skipn a l).
Proof.
  intros H. unfold pyslice, slice. rewrite !clip_nat. destruct (Nat.le_gt_cases (length l) a) as [G|G].
  - rewrite (skipn_all2 (n := min a (length l))), (skipn_all2 (n := a)) by lia. now rewrite !firstn_nil.
  - rewrite (Nat.min_l a) by lia. destruct (Nat.le_gt_cases b (length l)); [now rewrite Nat.min_l by lia|].
    rewrite !firstn_all2; [reflexivity|..]; rewrite skipn_length; lia.
Qed.

Definition cut {A} (s k : nat) (l : list A) : list (list A) := map (fun i => firstn s (skipn (i * s) l)) (seq 0 k).

Lemma firstn_plus {A} a b (l : list A) : firstn (a + b) l = firstn a l ++ firstn b (skipn a l).
Proof. revert l; induction a as [|a IH]; intros [|x l]; cbn; rewrite ?firstn_nil; try reflexivity. now rewrite IH. Qed.

Lemma concat_cut {A} s k (l : list A) : concat (cut s k l) = firstn (k * s) l.
Proof.
  unfold cut. induction k as [|k IH]; [reflexivity|]. rewrite seq_S, map_app, concat_app, IH. cbn.
  rewrite app_nil_r, (Nat.add_comm s), firstn_plus. reflexivity.
Qed.

Lemma pieces_cut {A} s k (l : list A) : 0 < s -> length l <= k * s -> (forall j, j < k -> j * s < length l) -> pieces l s (cut s k l).
Proof.
  intros Sp H L. split; [|split].
  - rewrite concat_cut. now apply firstn_all2.
  - apply Forall_forall. intros p Hp. apply in_map_iff in Hp. destruct Hp as (i & <- & Hi). apply in_seq in Hi. cbn in Hi.
    rewrite <- length_zero_iff_nil, firstn_length, skipn_length. specialize (L i). lia.
  - intros i p. unfold cut at 1. rewrite map_length, seq_length. intros Hi E. unfold cut in E. rewrite nth_error_map in E.
    rewrite nth_error_nth' with (d := 0) in E by (rewrite seq_length; lia). rewrite seq_nth in E by lia. cbn in E.
    assert (p = firstn s (skipn (i * s) l)) by congruence. subst. rewrite firstn_length, skipn_length. specialize (L (S i)). cbn in L. lia.
Qed.

Lemma pieces_count {A} (l : list A) s ps : 0 < s -> pieces l s ps -> length l <= s * length ps < length l + s.
Proof.
  intros Sp (<- & B & E).
  assert (forall qs : list (list A), Forall (fun p => p <> [] /\ length p <= s) qs -> (forall i p, S i < length qs -> nth_error qs i = Some p -> length p = s) ->
    length (concat qs) <= s * length qs /\ (s * length qs < length (concat qs) + s)) as G; [|exact (G ps B E)].
  clear - Sp. induction qs as [|p qs IH]; intros B E; [cbn; lia|]. inversion B; subst. destruct H1 as [N L].
  destruct IH as [I1 I2]; [assumption| |].
  { intros i q Hi Hq. apply (E (S i)); cbn; [lia|exact Hq]. }
  cbn [concat length]. rewrite app_length. destruct qs as [|q qs].
  - cbn in *. destruct p; [contradiction|]. cbn in *. lia.
  - assert (length p = s) by (apply (E 0); cbn; [lia|reflexivity]). lia.
Qed.

(** ** numpy *)
Lemma np_stack_ok {F} (l : list (list F)) : equal_lengths l -> np_stack l = Ok l.
Proof.
  intros E. destruct l as [|r l]; [reflexivity|]. cbn. replace (forallb _ l) with true; [reflexivity|].
  symmetry. apply forallb_forall. intros x Hx. apply Nat.eqb_eq. apply E; cbn; auto.
Qed.

Lemma chunks_concat {F} w (l : list (list F)) : Forall (fun r => length r = w) l -> chunks w (length l) (concat l) = l.
Proof.
  induction l as [|r l IH]; intros H; [reflexivity|]. inversion H; subst. cbn. f_equal.
  - rewrite firstn_app, Nat.sub_diag, firstn_all. cbn. now rewrite app_nil_r.
  - rewrite skipn_app, Nat.sub_diag, skipn_all. cbn. now apply IH.
Qed.

Lemma concat_len {F} w (l : list (list F)) : Forall (fun r => length r = w) l -> length (concat l) = length l * w.
Proof. induction 1 as [|r l H _ IH]; [reflexivity|]. cbn. rewrite app_length. lia. Qed.

Lemma equal_width {F} (l : list (list F)) : equal_lengths l -> exists w, Forall (fun r => length r = w) l.
Proof.
  intros E. destruct l as [|r l]; [exists 0; constructor|]. exists (length r). apply Forall_forall. intros x Hx. apply E; cbn; auto.
Qed.

Lemma reshape_ok {F} (l : list (list F)) : l <> [] -> equal_lengths l -> reshape (length l) (concat l) = Ok l.
Proof.
  intros N E. destruct (equal_width l E) as [w W]. unfold reshape. rewrite (concat_len w l W).
  assert (0 < length l) by (destruct l; [contradiction|cbn; lia]).
  rewrite (Nat.mul_comm (length l) w), Nat.mod_mul, Nat.div_mul by lia.
  replace (length l =? 0) with false by lia. cbn. now rewrite chunks_concat.
Qed.

Lemma singles {F} (l : list F) : concat (map (fun x => [x]) l) = l.
Proof. induction l as [|x l IH]; cbn; congruence. Qed.

Lemma singles_equal {F} (l : list F) : equal_lengths (map (fun x => [x]) l).
Proof. intros a b Ha Hb. apply in_map_iff in Ha, Hb. destruct Ha as (? & <- & _), Hb as (? & <- & _). reflexivity. Qed.

(** ** First occurrences *)
Lemma firsts_gen l : forall acc,
  fold_left (fun acc x => if existsb (Z.eqb x) acc then acc else acc ++ [x]) l acc =
  acc ++ filter (fun x => negb (existsb (Z.eqb x) acc)) (distinct Z.eqb l).
Proof.
  induction l as [|x l IH]; intros acc; cbn [fold_left distinct filter]; [now rewrite app_nil_r|].
  destruct (existsb (Z.eqb x) acc) eqn:E; cbn [negb].
  - rewrite IH. f_equal.
    generalize (distinct Z.eqb l) as d. induction d as [|y d IHd]; [reflexivity|]. cbn.
    destruct (x =? y)%Z eqn:Q; cbn.
    + apply Z.eqb_eq in Q. subst. rewrite E. cbn. exact IHd.
    + destruct (existsb (Z.eqb y) acc); cbn; [exact IHd|now rewrite IHd].
  - rewrite IH, <- app_assoc. f_equal. cbn. f_equal. generalize (distinct Z.eqb l) as d. induction d as [|y d IHd]; [reflexivity|]. cbn.
    rewrite existsb_app. cbn. rewrite orb_false_r, (Z.eqb_sym y x). destruct (x =? y)%Z eqn:Q; cbn.
    + rewrite orb_true_r. cbn. exact IHd.
    + rewrite orb_false_r. destruct (existsb (Z.eqb y) acc); cbn; [exact IHd|now rewrite IHd].
Qed.

Lemma firsts_distinct l : firsts l = distinct Z.eqb l.
Proof.
  unfold firsts. rewrite firsts_gen. cbn. induction (distinct Z.eqb l) as [|x d IH]; cbn; congruence.
Qed.

Section Distinct.
Context {A : Type}.
Variable same : A -> A -> bool.
Lemma distinct_in l x : In x (distinct same l) -> In x l.
Proof. revert x. induction l as [|y l IH]; cbn; [auto|]. intros x [H|H]; [auto|]. apply filter_In in H. right. now apply IH. Qed.
End Distinct.

Lemma distinct_nodup l : NoDup (distinct Z.eqb l).
Proof.
  induction l as [|x l IH]; cbn; constructor.
  - intros H. apply filter_In in H. rewrite Z.eqb_refl in H. destruct H. discriminate.
  - now apply NoDup_filter.
Qed.
Lemma in_distinct l x : In x l -> In x (distinct Z.eqb l).
Proof.
  induction l as [|y l IH]; cbn; [auto|]. intros [H|H]; [auto|]. destruct (Z.eq_dec y x); [auto|]. right. apply filter_In. split; [auto|].
  apply Z.eqb_neq in n. now rewrite n.
Qed.

(** ** Saving a collection *)
Section Saving.
Context {F : Type}.
Variable nonzero : F -> bool.

Lemma make_some (structs : list struct) (tot pot kin : list F) vir c : make structs tot pot kin vir = Ok c ->
  co_structs c = structs /\ co_total c = tot /\ co_potential c = pot /\ co_kinetic c = kin /\ co_virial c = vir /\
  exists s0 r, structs = s0 :: r /\ co_numbers c = firsts (st_species s0) /\ co_atoms c = length (st_species s0).
Proof.
  unfold make. destruct structs as [|s0 r]; cbn; [discriminate|]. intros H. injection H as <-. cbn. repeat split. eauto.
Qed.

Lemma make_ok (structs : list struct) (tot pot kin : list F) vir : structs <> [] -> exists c, make structs tot pot kin vir = Ok c.
Proof. destruct structs; [contradiction|]. intros _. unfold make. cbn. eauto. Qed.

Lemma build_ok (structs : list struct) (tot pot kin : list F) vir c : make structs tot pot kin vir = Ok c -> consistent structs tot vir ->
  build_arrays c = Ok (mkArrays (map st_box structs) (map (fun s => concat (st_coords s)) structs)
    (map (fun s => concat (st_forces s)) structs) (map (fun x => [x]) tot) vir (map st_energies structs)).
Proof.
  intros M (L1 & L2 & E1 & E2 & E3 & E4 & E5). destruct (make_some _ _ _ _ _ _ M) as (H1 & H2 & _ & _ & H5 & s0 & r & H6 & _).
  unfold build_arrays. rewrite H1, H2, H5. rewrite !np_stack_ok by assumption. cbn [bind].
  assert (N : structs <> []) by (rewrite H6; discriminate).
  assert (K : forall f : struct -> list F, equal_lengths (map f structs) -> reshape (length structs) (concat (map f structs)) = Ok (map f structs)).
  { intros f E. rewrite <- (map_length f structs) at 1. apply reshape_ok; [|exact E]. rewrite H6. discriminate. }
  rewrite !K by assumption. cbn [bind].
  assert (reshape (length structs) tot = Ok (map (fun x => [x]) tot)) as ->.
  { rewrite <- (singles tot) at 1. rewrite <- L1, <- (map_length (fun x => [x]) tot) at 1. apply reshape_ok; [|apply singles_equal].
    rewrite H6 in L1. destruct tot; [discriminate|discriminate]. }
  cbn [bind]. rewrite <- L2. rewrite reshape_ok; [reflexivity| |exact E1]. rewrite H6 in L2. destruct vir; discriminate.
Qed.

Lemma write_sets_ok (c : coll) a s is : forall dir, NoDup is ->
  (forall i e, In i is -> In e dir -> entry_name e <> ("set." ++ pad3 i)%string) ->
  write_sets nonzero c a s is dir = (dir ++ map (fun i => SetDir ("set." ++ pad3 i)%string (set_files nonzero c a (Z.of_nat i) s)) is, Ok tt).
Proof.
  induction is as [|i is IH]; intros dir N H; cbn [write_sets map]; [now rewrite app_nil_r|]. inversion N; subst.
  replace (existsb _ dir) with false.
  - rewrite IH; [rewrite <- app_assoc; reflexivity|assumption|]. intros j e Hj He. apply in_app_iff in He. destruct He as [He|[<-|[]]].
    + apply H; cbn; auto.
    + cbn [entry_name]. intros Q. apply (sapp_inv "set.") in Q. apply pad3_inj in Q. now subst.
  - symmetry. apply Bool.not_true_iff_false. intros Q. apply existsb_exists in Q. destruct Q as (e & He & Q). apply String.eqb_eq in Q.
    revert Q. apply H; cbn; auto.
Qed.

Lemma combine_snd {A B} (l : list A) (l' : list B) : length l = length l' -> map snd (combine l l') = l'.
Proof. revert l'. induction l as [|x l IH]; intros [|y l']; cbn; try discriminate; [auto|]. intros H. f_equal. apply IH. lia. Qed.
Lemma combine_fst {A B} (l : list A) (l' : list B) : length l = length l' -> map fst (combine l l') = l.
Proof. revert l'. induction l as [|x l IH]; intros [|y l']; cbn; try discriminate; [auto|]. intros H. f_equal. apply IH. lia. Qed.

Lemma type_index_eq (c : @coll F) : NoDup (co_numbers c) -> type_index c = combine (co_numbers c) (seq 0 (length (co_numbers c))).
Proof.
  intros N. unfold type_index. rewrite (fold_dset_new Z.eqb Z.eqb_eq (fun p : nat * Z => snd p) (fun p => fst p)).
  - cbn. generalize 0 as k. induction (co_numbers c) as [|x l IH]; intros k; cbn; [reflexivity|]. f_equal. apply IH. now inversion N.
  - cbn. rewrite combine_snd by now rewrite seq_length. exact N.
Qed.

Lemma index_of (l : list Z) a : forall k, In a l -> exists i, dget Z.eqb (combine l (seq k (length l))) a = Ok (k + i) /\ nth_error l i = Some a.
Proof.
  induction l as [|x l IH]; intros k; cbn; [tauto|]. destruct (a =? x)%Z eqn:E.
  - intros _. apply Z.eqb_eq in E. subst. exists 0. rewrite Nat.add_0_r. auto.
  - intros [H|H]; [apply Z.eqb_neq in E; congruence|]. destruct (IH (S k) H) as (i & G & Q). exists (S i). rewrite G. cbn. split; [f_equal; lia|auto].
Qed.

Lemma map_get_seq {A B} (f : A -> result B) (l : list A) (P : A -> B -> Prop) : (forall a, In a l -> exists b, f a = Ok b /\ P a b) ->
  exists r, mapM (fun i => bind (get l i) f) (seq 0 (length l)) = Ok r /\ Forall2 P l r.
Proof.
  intros H. assert (forall pre post, l = pre ++ post -> exists r, mapM (fun i => bind (get l i) f) (seq (length pre) (length post)) = Ok r /\ Forall2 P post r) as G.
  - intros pre post. revert pre. induction post as [|a post IH]; intros pre E; cbn; [exists []; split; [reflexivity|constructor]|].
    assert (get l (length pre) = Ok a) as -> by (unfold get; rewrite E, nth_error_app2, Nat.sub_diag by lia; reflexivity). cbn [bind].
    destruct (H a) as (b & Hb & Pb); [rewrite E; apply in_or_app; cbn; auto|]. rewrite Hb. cbn.
    destruct (IH (pre ++ [a])) as (r & Hr & Pr); [rewrite E, <- app_assoc; reflexivity|].
    rewrite app_length, Nat.add_comm in Hr. cbn in Hr. rewrite Hr. cbn. exists (b :: r). split; [reflexivity|now constructor].
  - exact (G [] l eq_refl).
Qed.

(** Everything up to the sets. *)
Lemma to_prefix (structs : list struct) (tot pot kin : list F) vir c s0 r : make structs tot pot kin vir = Ok c -> structs = s0 :: r ->
  exists ts, Forall2 (fun a t => nth_error (distinct Z.eqb (st_species s0)) t = Some a) (st_species s0) ts /\
  forall old s,
  to nonzero old c s =
  let dir := [Text "type_map.raw" (lines (map dec (seq 0 (length (distinct Z.eqb (st_species s0)))))); Text "type.raw" (lines (map dec ts))]%string in
  match build_arrays c with
  | Err e => (dir, Err e)
  | Ok a =>
      let n := Z.of_nat (length structs) in
      if (s =? 0)%Z then (dir, Err ZeroDivisionError) else
      let k := (n / s)%Z in let k' := if (s * k <? n)%Z then (k + 1)%Z else k in
      write_sets nonzero c a s (seq 0 (Z.to_nat k')) dir
  end.
Proof.
  intros M E. destruct (make_some _ _ _ _ _ _ M) as (H1 & _ & _ & _ & _ & s0' & r' & H6 & H7 & H8).
  assert (s0' = s0) by congruence. subst s0'. rewrite firsts_distinct in H7.
  assert (ND : NoDup (co_numbers c)) by (rewrite H7; apply distinct_nodup).
  destruct (map_get_seq (dget Z.eqb (type_index c)) (st_species s0) (fun a t => nth_error (distinct Z.eqb (st_species s0)) t = Some a)) as (ts & Hts & Pts).
  { intros a Ha. rewrite type_index_eq, H7 by assumption. apply in_distinct in Ha. destruct (index_of _ a 0 Ha) as (i & G & Q). exists i. auto. }
  exists ts. split; [exact Pts|]. intros old s. unfold to.
  assert (G0 : get (co_structs c) 0 = Ok s0) by (rewrite H1, E; reflexivity). rewrite G0. cbn [bind]. rewrite H8, Hts.
  assert (map (fun p : Z * nat => dec (snd p)) (type_index c) = map dec (seq 0 (length (distinct Z.eqb (st_species s0))))) as ->.
  { rewrite type_index_eq, H7 by assumption. rewrite <- map_map with (f := snd) (g := dec). rewrite combine_snd; [reflexivity|now rewrite seq_length]. }
  rewrite H1. destruct old; reflexivity.
Qed.

Lemma set_dirs_app (a b : list (@entry F)) : set_dirs (a ++ b) = set_dirs a ++ set_dirs b.
Proof. apply flat_map_app. Qed.
Lemma set_dirs_map (f : nat -> string) (g : nat -> list (string * list (list F))) l : set_dirs (map (fun i => SetDir (f i) (g i)) l) = map (fun i => (f i, g i)) l.
Proof. unfold set_dirs. induction l as [|x l IH]; cbn; congruence. Qed.

Lemma part_cut (s k : nat) (rows : list (list F)) :
  map (fun i => pyslice (Z.of_nat i * Z.of_nat s) ((Z.of_nat i + 1) * Z.of_nat s) rows) (seq 0 k) = cut s k rows.
Proof.
  apply map_ext. intros i. replace (Z.of_nat i * Z.of_nat s)%Z with (Z.of_nat (i * s)) by lia.
  replace ((Z.of_nat i + 1) * Z.of_nat s)%Z with (Z.of_nat (i * s + s)) by lia. rewrite pyslice_nat by lia. f_equal. lia.
Qed.

Lemma ceil_div (n s : Z) : (0 < s)%Z -> (0 <= n)%Z ->
  let k := (n / s)%Z in let k' := if (s * k <? n)%Z then (k + 1)%Z else k in (0 <= k' /\ n <= s * k' < n + s)%Z.
Proof.
  intros Sp N. cbv zeta. pose proof (Z.div_mod n s) as D. pose proof (Z.mod_pos_bound n s Sp) as B.
  pose proof (Z.div_pos n s N Sp). set (k := (n / s)%Z) in *. destruct (s * k <? n)%Z eqn:E; lia.
Qed.

Lemma saved (structs : list struct) (tot pot kin : list F) vir c (old : option (list entry)) (s : nat) :
  make structs tot pot kin vir = Ok c -> consistent structs tot vir -> 0 < s ->
  exists dir k, to nonzero old c (Z.of_nat s) = (dir, Ok tt) /\
  length structs <= s * k < length structs + s /\
  map fst (set_dirs dir) = map (fun i => "set." ++ pad3 i)%string (seq 0 k) /\ NoDup (map fst (set_dirs dir)) /\
  holds (set_dirs dir) "cell.npy" (map st_box structs) s /\
  holds (set_dirs dir) "atom_coord.npy" (map (fun x => concat (st_coords x)) structs) s /\
  holds (set_dirs dir) "atom_force.npy" (map (fun x => concat (st_forces x)) structs) s /\
  holds (set_dirs dir) "tot_energy.npy" (map (fun e => [e]) tot) s /\
  (if existsb (existsb nonzero) vir then holds (set_dirs dir) "virial.npy" vir s else lacks (set_dirs dir) "virial.npy") /\
  (if existsb (existsb nonzero) (map st_energies structs) then holds (set_dirs dir) "atom_energy.npy" (map st_energies structs) s
   else lacks (set_dirs dir) "atom_energy.npy").
Proof.
  intros M C Sp. destruct (make_some _ _ _ _ _ _ M) as (H1 & H2 & _ & _ & H5 & s0 & r & H6 & _).
  destruct (to_prefix _ _ _ _ _ _ _ _ M H6) as (ts & _ & T). specialize (T old (Z.of_nat s)). cbv zeta in T.
  rewrite (build_ok _ _ _ _ _ _ M C) in T. replace (Z.of_nat s =? 0)%Z with false in T by lia.
  set (k' := (if (Z.of_nat s * (Z.of_nat (length structs) / Z.of_nat s) <? Z.of_nat (length structs))%Z then _ else _)) in T.
  assert (K : (0 <= k' /\ Z.of_nat (length structs) <= Z.of_nat s * k' < Z.of_nat (length structs) + Z.of_nat s)%Z) by (apply ceil_div; lia).
  set (k := Z.to_nat k') in *. assert (Kk : length structs <= s * k < length structs + s) by (subst k; nia). clearbody k. clear K k'.
  rewrite write_sets_ok in T; [|apply seq_NoDup|intros i e _ [<-|[<-|[]]]; cbn [entry_name]; discriminate].
  eexists _, k. split; [exact T|]. clear T. rewrite set_dirs_app, set_dirs_map. cbn [set_dirs flat_map app].
  split; [exact Kk|].
  assert (HS : forall key rows, length rows = length structs ->
    (forall i, file key (set_files nonzero c (mkArrays (map st_box structs) (map (fun x => concat (st_coords x)) structs) (map (fun x => concat (st_forces x)) structs)
       (map (fun e => [e]) tot) vir (map st_energies structs)) (Z.of_nat i) (Z.of_nat s)) = Some (pyslice (Z.of_nat i * Z.of_nat s) ((Z.of_nat i + 1) * Z.of_nat s) rows)) ->
    holds (map (fun i => (("set." ++ pad3 i)%string, set_files nonzero c (mkArrays (map st_box structs) (map (fun x => concat (st_coords x)) structs) (map (fun x => concat (st_forces x)) structs)
       (map (fun e => [e]) tot) vir (map st_energies structs)) (Z.of_nat i) (Z.of_nat s))) (seq 0 k)) key rows s).
  { intros key rows L Hf. exists (cut s k rows). split.
    - rewrite <- part_cut, !map_map. apply map_ext. intros i. cbn [snd]. apply Hf.
    - apply pieces_cut; [lia|nia|]. intros j Hj. nia. }
  destruct C as (L1 & L2 & _).
  split; [rewrite map_map; reflexivity|]. split.
  { rewrite map_map. cbn [fst]. apply Injective_map_NoDup; [|apply seq_NoDup]. intros i j Q. apply pad3_inj. now apply (sapp_inv "set."). }
  assert (V : existsb nonzero (concat (co_virial c)) = existsb (existsb nonzero) vir).
  { rewrite H5. clear. induction vir as [|v vir IH]; [reflexivity|]. cbn. now rewrite existsb_app, IH. }
  assert (W : existsb nonzero (concat (map st_energies structs)) = existsb (existsb nonzero) (map st_energies structs)).
  { clear. induction (map st_energies structs) as [|v l IH]; [reflexivity|]. cbn. now rewrite existsb_app, IH. }
  split; [apply HS; [now rewrite map_length|reflexivity]|]. split; [apply HS; [now rewrite map_length|reflexivity]|].
  split; [apply HS; [now rewrite map_length|reflexivity]|]. split; [apply HS; [now rewrite map_length|reflexivity]|]. split.
  - destruct (existsb (existsb nonzero) vir) eqn:E.
    + apply HS; [exact L2|]. intros i. unfold set_files. rewrite V. reflexivity.
    + apply Forall_forall. intros d Hd. apply in_map_iff in Hd. destruct Hd as (i & <- & _). cbn [snd]. unfold set_files. rewrite V. cbn [app].
      destruct (existsb nonzero (concat (ar_energy _))); reflexivity.
  - destruct (existsb (existsb nonzero) (map st_energies structs)) eqn:E.
    + apply HS; [now rewrite map_length|]. intros i. unfold set_files. cbn [ar_energy]. rewrite W. destruct (existsb nonzero (concat (co_virial c))); reflexivity.
    + apply Forall_forall. intros d Hd. apply in_map_iff in Hd. destruct Hd as (i & <- & _). cbn [snd]. unfold set_files. cbn [ar_energy]. rewrite W.
      destruct (existsb nonzero (concat (co_virial c))); reflexivity.
Qed.

(** Text files. *)
Lemma lines_each l : l <> [] -> lines l = each_line l.
Proof.
  intros N. unfold lines. induction l as [|x l IH]; [contradiction|]. destruct l as [|y l]; [cbn; reflexivity|].
  change (String.concat newline (x :: y :: l)) with (x ++ newline ++ String.concat newline (y :: l))%string.
  rewrite !sapp_assoc. cbn [each_line fold_right]. f_equal. f_equal. apply IH. discriminate.
Qed.

Lemma texts_sets (a : list (string * string)) (f : nat -> string) (g : nat -> list (string * list (list F))) l :
  texts (map (fun p => Text (fst p) (snd p)) a ++ map (fun i => SetDir (f i) (g i)) l) = a.
Proof.
  unfold texts. rewrite flat_map_app. replace (flat_map _ (map (fun i => SetDir (f i) (g i)) l)) with (@nil (string * string)).
  - rewrite app_nil_r. induction a as [|[n t] a IH]; cbn; congruence.
  - induction l; cbn; auto.
Qed.

(** Whatever happens to the sets, only these two text files are written. *)
Lemma type_files (structs : list struct) (tot pot kin : list F) vir c s0 r old s : make structs tot pot kin vir = Ok c -> structs = s0 :: r ->
  st_species s0 <> [] ->
  exists ts, Forall2 (fun a t => nth_error (distinct Z.eqb (st_species s0)) t = Some a) (st_species s0) ts /\
  texts (fst (to nonzero old c s)) =
  [("type_map.raw", each_line (map dec (seq 0 (length (distinct Z.eqb (st_species s0)))))); ("type.raw", each_line (map dec ts))]%string.
Proof.
  intros M E N. destruct (to_prefix _ _ _ _ _ _ _ _ M E) as (ts & P & T). exists ts. split; [exact P|]. rewrite T. cbv zeta.
  assert (N1 : map dec ts <> []). { destruct ts; [|discriminate]. inversion P as [Q|]. intros _. apply N. congruence. }
  assert (N2 : map dec (seq 0 (length (distinct Z.eqb (st_species s0)))) <> []). { destruct (st_species s0); [contradiction|discriminate]. }
  rewrite !lines_each by assumption.
  destruct (build_arrays c) as [a|e]; [|reflexivity]. destruct (s =? 0)%Z; [reflexivity|].
  rewrite write_sets_ok; [|apply seq_NoDup|intros i e _ [<-|[<-|[]]]; cbn [entry_name]; discriminate]. cbn [fst].
  exact (texts_sets [("type_map.raw"%string, _); ("type.raw"%string, _)] _ _ _).
Qed.

Lemma zero_size (structs : list struct) (tot pot kin : list F) vir c old : make structs tot pot kin vir = Ok c -> consistent structs tot vir ->
  exists a b, to nonzero old c 0 = ([Text "type_map.raw" a; Text "type.raw" b], Err ZeroDivisionError)%string.
Proof.
  intros M C. destruct (make_some _ _ _ _ _ _ M) as (_ & _ & _ & _ & _ & s0 & r & E & _).
  destruct (to_prefix _ _ _ _ _ _ _ _ M E) as (ts & _ & T). rewrite T. cbv zeta. rewrite (build_ok _ _ _ _ _ _ M C). cbn [Z.eqb]. eauto.
Qed.

Lemma negative_size (structs : list struct) (tot pot kin : list F) vir c old s : make structs tot pot kin vir = Ok c -> consistent structs tot vir ->
  (s < 0)%Z -> exists a b, to nonzero old c s = ([Text "type_map.raw" a; Text "type.raw" b], Ok tt)%string.
Proof.
  intros M C Sp. destruct (make_some _ _ _ _ _ _ M) as (_ & _ & _ & _ & _ & s0 & r & E & _).
  destruct (to_prefix _ _ _ _ _ _ _ _ M E) as (ts & _ & T). rewrite T. cbv zeta. rewrite (build_ok _ _ _ _ _ _ M C).
  replace (s =? 0)%Z with false by lia. set (n := Z.of_nat (length structs)).
  assert (0 <= n)%Z by lia. pose proof (Z.div_mod n s) as D. pose proof (Z.mod_neg_bound n s Sp) as B.
  assert (n / s <= 0)%Z by (specialize (D ltac:(lia)); nia).
  replace (s * (n / s) <? n)%Z with false by lia. replace (Z.to_nat (n / s)) with 0 by lia. cbn. eauto.
Qed.

(** A virial array whose entries cannot be spread over the frames stops the saving. *)
Lemma bad_virial (structs : list struct) (tot pot kin : list F) vir c old s : make structs tot pot kin vir = Ok c ->
  length tot = length structs -> equal_lengths (map st_box structs) -> equal_lengths (map (fun x => concat (st_coords x)) structs) ->
  equal_lengths (map (fun x => concat (st_forces x)) structs) ->
  length (concat vir) mod length structs <> 0 -> snd (to nonzero old c s) = Err ValueError /\ set_dirs (fst (to nonzero old c s)) = [].
Proof.
  intros M L E1 E2 E3 B. destruct (make_some _ _ _ _ _ _ M) as (H1 & H2 & _ & _ & H5 & s0 & r & E & _).
  destruct (to_prefix _ _ _ _ _ _ _ _ M E) as (ts & _ & T). rewrite T. cbv zeta.
  assert (build_arrays c = Err ValueError) as ->; [|split; reflexivity].
  unfold build_arrays. rewrite H1, H2, H5. rewrite !np_stack_ok by assumption. cbn [bind].
  assert (K : forall f : struct -> list F, equal_lengths (map f structs) -> reshape (length structs) (concat (map f structs)) = Ok (map f structs)).
  { intros f Ef. rewrite <- (map_length f structs) at 1. apply reshape_ok; [|exact Ef]. rewrite E. discriminate. }
  rewrite !K by assumption. cbn [bind].
  assert (reshape (length structs) tot = Ok (map (fun x => [x]) tot)) as ->.
  { rewrite <- (singles tot) at 1. rewrite <- L, <- (map_length (fun x => [x]) tot) at 1. apply reshape_ok; [|apply singles_equal].
    rewrite E in L. destruct tot; [discriminate|discriminate]. }
  cbn [bind]. unfold reshape. replace (length (concat vir) mod length structs =? 0) with false by (symmetry; now apply Nat.eqb_neq).
  cbn. now rewrite orb_true_r.
Qed.

End Saving.

(** ** Selecting *)
Section Selecting.
Context {F : Type}.
Variable zero : F.
Lemma pyget_refers {A} (l : list A) i x : pyget l i = Ok x <-> refers l i x.
Proof.
  unfold pyget, refers. destruct (i <? 0)%Z eqn:E.
  - destruct (i + Z.of_nat (length l) <? 0)%Z eqn:E2.
    + split; [discriminate|]. lia.
    + unfold get. destruct (nth_error l _) as [y|] eqn:Q.
      * split; intros H; [split; [lia|congruence]|]. destruct H as [_ H]. congruence.
      * split; [discriminate|]. intros [_ H]. discriminate.
  - unfold get. destruct (nth_error l _) as [y|] eqn:Q.
    + split; intros H; [|destruct H; congruence]. split; [|congruence]. assert (Z.to_nat i < length l) by (apply nth_error_Some; congruence). lia.
    + split; [discriminate|]. intros [_ H]. discriminate.
Qed.

Lemma pyget_err {A} (l : list A) i e : pyget l i = Err e -> e = IndexError /\ ~ (-Z.of_nat (length l) <= i < Z.of_nat (length l))%Z.
Proof.
  unfold pyget. destruct (i <? 0)%Z eqn:E.
  - destruct (i + Z.of_nat (length l) <? 0)%Z eqn:E2; [intros H; split; [congruence|lia]|].
    unfold get. destruct (nth_error l _) eqn:Q; [discriminate|]. apply nth_error_None in Q. intros H. split; [congruence|lia].
  - unfold get. destruct (nth_error l _) eqn:Q; [discriminate|]. apply nth_error_None in Q. intros H. split; [congruence|lia].
Qed.

Lemma pyget_in {A} (l : list A) i : (-Z.of_nat (length l) <= i < Z.of_nat (length l))%Z -> exists x, pyget l i = Ok x.
Proof. intros H. destruct (pyget l i) eqn:E; [eauto|]. apply pyget_err in E. tauto. Qed.

Lemma select_ok {A} (l : list A) is : Forall (fun i => -Z.of_nat (length l) <= i < Z.of_nat (length l))%Z is ->
  exists r, mapM (pyget l) is = Ok r /\ Forall2 (refers l) is r.
Proof.
  induction 1 as [|i is H _ (r & E & P)]; [exists []; split; [reflexivity|constructor]|]. destruct (pyget_in l i H) as [x X].
  exists (x :: r). cbn. rewrite X, E. cbn. split; [reflexivity|]. constructor; [now apply pyget_refers|exact P].
Qed.

Lemma select_bad {A} (l : list A) is : Exists (fun i => ~ (-Z.of_nat (length l) <= i < Z.of_nat (length l))%Z) is -> mapM (pyget l) is = Err IndexError.
Proof.
  induction 1 as [i is H|i is H IH]; cbn.
  - destruct (pyget l i) eqn:E.
    + exfalso. apply H. apply pyget_refers in E. apply E.
    + cbn. f_equal. apply pyget_err in E. tauto.
  - destruct (pyget l i) eqn:E; cbn; [now rewrite IH|]. f_equal. apply pyget_err in E. tauto.
Qed.

Lemma fold_max_spec r : forall a n, (n <? fold_left Z.max r a)%Z = true <-> Exists (fun i => n < i)%Z (a :: r).
Proof.
  induction r as [|b r IH]; intros a n; cbn [fold_left].
  - split; intros H; [left; lia|]. inversion H as [? ? Q|? ? Q]; subst; [lia|inversion Q].
  - rewrite IH. split; intros H.
    + inversion H as [? ? Q|? ? Q]; subst; [|right; right; exact Q]. destruct (Z.max_spec a b) as [[? E]|[? E]]; rewrite E in Q; [right; left; exact Q|left; exact Q].
    + inversion H as [? ? Q|? ? Q]; subst; [left; lia|]. inversion Q as [? ? Q'|? ? Q']; subst; [left; lia|right; exact Q'].
Qed.

Lemma selected (structs : list struct) (tot pot kin : list F) vir c is : make structs tot pot kin vir = Ok c ->
  length tot = length structs -> length pot = length structs -> length kin = length structs ->
  is <> [] -> Forall (fun i => -Z.of_nat (length structs) <= i < Z.of_nat (length structs))%Z is ->
  exists c', from_indices zero c is = Selected c' /\ length (co_structs c') = length is /\ Forall2 (refers structs) is (co_structs c') /\
  Forall2 (refers tot) is (co_total c') /\ Forall2 (refers pot) is (co_potential c') /\ Forall2 (refers kin) is (co_kinetic c') /\
  (if forallb (fun i => ((-Z.of_nat (length vir) <=? i) && (i <? Z.of_nat (length vir)))%Z) is then Forall2 (refers vir) is (co_virial c') else co_virial c' = repeat [zero] 10).
Proof.
  intros M L1 L2 L3 N B. destruct (make_some _ _ _ _ _ _ M) as (H1 & H2 & H3 & H4 & H5 & _).
  destruct is as [|i is]; [contradiction|]. unfold from_indices. rewrite H1, H2, H3, H4, H5.
  destruct (Z.of_nat (length structs) <? fold_left Z.max is i)%Z eqn:G.
  { exfalso. apply fold_max_spec in G. apply Exists_exists in G. destruct G as (j & Hj & G). rewrite Forall_forall in B. specialize (B j Hj). lia. }
  destruct (select_ok structs (i :: is)) as (rs & Es & Ps); [exact B|].
  destruct (select_ok tot (i :: is)) as (rt & Et & Pt); [rewrite L1; exact B|].
  destruct (select_ok pot (i :: is)) as (rp & Ep & Pp); [rewrite L2; exact B|].
  destruct (select_ok kin (i :: is)) as (rk & Ek & Pk); [rewrite L3; exact B|].
  rewrite Es, Et, Ep, Ek. cbn [bind].
  destruct (make_ok rs rt rp rk (match mapM (pyget vir) (i :: is) with Ok v => v | Err _ => repeat [zero] 10 end)) as (c' & M').
  { intros ->. inversion Ps. }
  rewrite M'. exists c'. destruct (make_some _ _ _ _ _ _ M') as (K1 & K2 & K3 & K4 & K5 & _).
  rewrite K1, K2, K3, K4, K5. split; [reflexivity|]. split; [clear - Ps; induction Ps; cbn; congruence|]. do 4 (split; [assumption|]).
  destruct (forallb _ (i :: is)) eqn:V.
  - rewrite forallb_forall in V. destruct (select_ok vir (i :: is)) as (rv & Ev & Pv).
    { apply Forall_forall. intros j Hj. specialize (V j Hj). lia. }
    rewrite Ev. exact Pv.
  - rewrite select_bad; [reflexivity|]. apply Exists_exists. apply Bool.not_true_iff_false in V. rewrite forallb_forall in V.
    assert (X : ~ Forall (fun j => (-Z.of_nat (length vir) <= j < Z.of_nat (length vir))%Z) (i :: is)).
    { intros X. rewrite Forall_forall in X. apply V. intros j Hj. specialize (X j Hj). lia. }
    apply Exists_exists. apply neg_Forall_Exists_neg; [|exact X]. intros j. destruct (Z_le_dec (-Z.of_nat (length vir)) j), (Z_lt_dec j (Z.of_nat (length vir))); (left; lia) || (right; lia).
Qed.

Lemma guarded (c : @coll F) is : (from_indices zero c is = Guarded <-> Exists (fun i => Z.of_nat (length (co_structs c)) < i)%Z is).
Proof.
  destruct is as [|i is]; cbn [from_indices]; [split; [discriminate|intros H; inversion H]|]. rewrite <- fold_max_spec.
  destruct (Z.of_nat (length (co_structs c)) <? fold_left Z.max is i)%Z; [tauto|]. split; [|discriminate].
  destruct (bind _ _); discriminate.
Qed.

Lemma unguarded (c : @coll F) is : is <> [] -> Forall (fun i => i <= Z.of_nat (length (co_structs c)))%Z is ->
  Exists (fun i => i = Z.of_nat (length (co_structs c)) \/ i < -Z.of_nat (length (co_structs c)))%Z is -> from_indices zero c is = Raised IndexError.
Proof.
  intros N B X. destruct is as [|i is]; [contradiction|]. unfold from_indices.
  destruct (Z.of_nat (length (co_structs c)) <? fold_left Z.max is i)%Z eqn:G.
  { exfalso. apply fold_max_spec in G. apply Exists_exists in G. destruct G as (j & Hj & G). rewrite Forall_forall in B. specialize (B j Hj). lia. }
  rewrite select_bad; [reflexivity|]. apply Exists_exists in X. apply Exists_exists. destruct X as (j & Hj & X). exists j. split; [exact Hj|]. lia.
Qed.

End Selecting.
