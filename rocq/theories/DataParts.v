(** Proofs about saving information sets in parts. *)
From Coq Require Import String ZifyBool ZifyNat FinFun.
From Verif Require Import Base ElementModel ElementProofs DataModel DataSpec DataText DataProofs.

Section Parts.
Context {F : Type}.

Definition part_name (i : nat) : string := ("part." ++ pad3 i)%string.

Lemma pyslice_past {A} (a b : nat) (l : list A) : a <= length l <= b ->
  pyslice (Z.of_nat a) (Z.of_nat b) l = pyslice (Z.of_nat a) (Z.of_nat (length l)) l.
Proof.
  intros H. rewrite !pyslice_nat by lia. rewrite !firstn_all2; [reflexivity|..]; rewrite skipn_length; lia.
Qed.

Lemma part_files_past (s : @infoset F) a b : whole s -> a <= is_frames s <= b ->
  part_files s (Z.of_nat a) (Z.of_nat (is_frames s)) = part_files s (Z.of_nat a) (Z.of_nat b).
Proof.
  intros W H. destruct s as [bx ty co et fa di fo n vi ea ma]. cbv [whole] in W. cbn in *.
  assert (K : forall A (l : list A), length l = n -> pyslice (Z.of_nat a) (Z.of_nat n) l = pyslice (Z.of_nat a) (Z.of_nat b) l).
  { intros A l E. subst n. symmetry. apply pyslice_past. exact H. }
  destruct W as (W1 & W2 & W3 & W4 & W5 & W6 & W7 & W8). unfold part_files. cbn.
  rewrite (K _ bx W1), (K _ ty W2), (K _ co W3), (K _ et W4), (K _ fa W5).
  destruct vi as [v|]; [rewrite (K _ v W6)|]; (destruct ea as [e|]; [rewrite (K _ e W7)|]); (destruct ma as [g|]; [rewrite (K _ g W8)|]); reflexivity.
Qed.

Lemma write_parts_ok (s : @infoset F) parts p : whole s -> 0 < p -> parts * p <= is_frames s <= (parts + 1) * p ->
  forall r i done, i + r = parts + 1 -> (forall j e, i <= j -> In e done -> fst e <> part_name j) ->
  write_parts s (Z.of_nat (parts + 1)) (Z.of_nat p) (seq i r) done =
  (done ++ map (fun j => (part_name j, part_files s (Z.of_nat (j * p)) (Z.of_nat (j * p + p))))
     (seq i (if parts * p =? is_frames s then r - 1 else r)), Ok tt).
Proof.
  intros W P B. induction r as [|r IH]; intros i done E D.
  - cbn. destruct (parts * p =? is_frames s); cbn; now rewrite app_nil_r.
  - cbn [seq write_parts].
    assert (X : existsb (fun e : string * list (string * @narray F) => String.eqb (fst e) (part_name i)) done = false).
    { apply Bool.not_true_iff_false. intros Q. apply existsb_exists in Q. destruct Q as (e & He & Q). apply String.eqb_eq in Q.
      revert Q. apply D; auto. }
    fold (part_name i). rewrite X. destruct (Z.of_nat i =? Z.of_nat (parts + 1) - 1)%Z eqn:L.
    + assert (i = parts) by lia. subst i. assert (r = 0) by lia. subst r.
      replace (Z.of_nat parts * Z.of_nat p)%Z with (Z.of_nat (parts * p)) by lia.
      destruct (parts * p =? is_frames s) eqn:Q.
      * replace (Z.of_nat (is_frames s) =? Z.of_nat (parts * p))%Z with true by lia. cbn. now rewrite app_nil_r.
      * replace (Z.of_nat (is_frames s) =? Z.of_nat (parts * p))%Z with false by lia. cbn [seq write_parts map].
        rewrite (part_files_past s (parts * p) (parts * p + p)); [reflexivity|exact W|lia].
    + replace (Z.of_nat i * Z.of_nat p)%Z with (Z.of_nat (i * p)) by lia.
      replace (Z.of_nat (i * p) + Z.of_nat p =? Z.of_nat (i * p))%Z with false by lia.
      replace (Z.of_nat (i * p) + Z.of_nat p)%Z with (Z.of_nat (i * p + p)) by lia.
      rewrite IH; [|lia|].
      * rewrite <- app_assoc. cbn [app]. destruct r as [|r]; [lia|]. destruct (parts * p =? is_frames s); [|reflexivity].
        replace (S (S r) - 1) with (S (S r - 1)) by lia. reflexivity.
      * intros j e Hj He. apply in_app_iff in He. destruct He as [He|[<-|[]]]; [apply D; [lia|exact He]|]. cbn [fst].
        intros Q. apply (sapp_inv "part.") in Q. apply pad3_inj in Q. lia.
Qed.

Definition parts_of (s : @infoset F) (p k : nat) : list (string * list (string * narray)) :=
  map (fun j => (part_name j, part_files s (Z.of_nat (j * p)) (Z.of_nat (j * p + p)))) (seq 0 k).

Lemma cut_slices {A} (p k : nat) (l : list A) : map (fun j => pyslice (Z.of_nat (j * p)) (Z.of_nat (j * p + p)) l) (seq 0 k) = cut p k l.
Proof. apply map_ext. intros j. rewrite pyslice_nat by lia. f_equal. lia. Qed.

Lemma parts_hold (s : @infoset F) p k : whole s -> 0 < p -> is_frames s <= p * k < is_frames s + p -> holds_set (parts_of s p k) s p.
Proof.
  intros W P B.
  assert (G : forall A (l : list A), length l = is_frames s -> pieces l p (cut p k l)).
  { intros A l E. apply pieces_cut; [exact P|nia|]. intros j Hj. nia. }
  assert (N : forall key l, length l = is_frames s ->
    (forall a b, file key (part_files s a b) = Some (Nums (pyslice a b l))) -> held_opt (parts_of s p k) key (Some l) p).
  { intros key l E H. exists (cut p k l). split; [|now apply G]. unfold num_parts, parts_of. rewrite <- cut_slices, !map_map.
    apply map_ext. intros j. cbn [snd]. now rewrite H. }
  assert (O : forall key o, match o with Some l => length l = is_frames s | None => True end ->
    (forall a b, file key (part_files s a b) = option_map (fun l => Nums (pyslice a b l)) o) -> held_opt (parts_of s p k) key o p).
  { intros key [l|] E H; [apply N; [exact E|exact H]|]. apply Forall_forall. intros d Hd. unfold parts_of in Hd. apply in_map_iff in Hd.
    destruct Hd as (j & <- & _). cbn [snd]. apply H. }
  destruct s as [bx ty co et fa di fo n vi ea ma]. cbv [whole] in W. cbn in W. destruct W as (W1 & W2 & W3 & W4 & W5 & W6 & W7 & W8).
  unfold holds_set. cbn [is_box is_coord is_etot is_fatom is_types is_virial is_eatom is_magmom].
  repeat split.
  - apply N; [exact W1|reflexivity].
  - apply N; [exact W3|reflexivity].
  - apply N; [exact W4|reflexivity].
  - apply N; [exact W5|reflexivity].
  - exists (cut p k ty). split; [|now apply G]. unfold int_parts, parts_of. rewrite <- cut_slices, !map_map. apply map_ext. intros j. reflexivity.
  - apply O; [exact W6|]. intros a b. destruct vi, ea, ma; reflexivity.
  - apply O; [exact W7|]. intros a b. destruct vi, ea, ma; reflexivity.
  - apply O; [exact W8|]. intros a b. destruct vi, ea, ma; reflexivity.
Qed.

Lemma type_map_lines (d : list (string * nat)) : type_map d = each_line (map fst d).
Proof.
  assert (forall s, fold_left (fun s p => (s ++ (fst p ++ newline))%string) d s = (s ++ each_line (map fst d))%string) as G.
  { induction d as [|p d IH]; intros s; cbn; [now rewrite sapp_nil|]. rewrite IH, !sapp_assoc. reflexivity. }
  apply G.
Qed.

Lemma fresh_dir (dir : list (@formula_dir F)) f : ~ In f (map fd_name dir) -> existsb (fun d => String.eqb (fd_name d) f) dir = false.
Proof.
  intros N. apply Bool.not_true_iff_false. intros Q. apply existsb_exists in Q. destruct Q as (d & Hd & Q). apply String.eqb_eq in Q.
  apply N. apply in_map_iff. eauto.
Qed.

Lemma names_nodup (s : @infoset F) p k : map fst (parts_of s p k) = map part_name (seq 0 k) /\ NoDup (map fst (parts_of s p k)).
Proof.
  unfold parts_of. rewrite map_map. cbn [fst]. split; [reflexivity|]. apply Injective_map_NoDup; [|apply seq_NoDup].
  intros i j Q. apply pad3_inj. now apply (sapp_inv "part.").
Qed.

Lemma parts_saved dir (s : @infoset F) (p : nat) : whole s -> 0 < p -> ~ In (is_formula s) (map fd_name dir) ->
  exists parts k, to_dir dir s (Some (Z.of_nat p)) = (dir ++ [mkDir (is_formula s) (each_line (map fst (is_dict s))) parts], Ok tt) /\
  holds_set parts s p /\ is_frames s <= p * k < is_frames s + p /\ map fst parts = map part_name (seq 0 k) /\ NoDup (map fst parts).
Proof.
  intros W P N. unfold to_dir. replace (Z.of_nat p =? 0)%Z with false by lia. rewrite fresh_dir by exact N.
  rewrite Z.quot_div_nonneg by lia.
  pose proof (Z.div_mod (Z.of_nat (is_frames s)) (Z.of_nat p) ltac:(lia)) as D. pose proof (Z.mod_pos_bound (Z.of_nat (is_frames s)) (Z.of_nat p) ltac:(lia)) as B.
  assert (Q : exists q, (Z.of_nat (is_frames s) / Z.of_nat p)%Z = Z.of_nat q).
  { exists (Z.to_nat (Z.of_nat (is_frames s) / Z.of_nat p)). rewrite Z2Nat.id; [reflexivity|]. apply Z.div_pos; lia. }
  destruct Q as [q Q]. rewrite Q in *. replace (Z.of_nat q + 1)%Z with (Z.of_nat (q + 1)) by lia. rewrite Nat2Z.id.
  assert (R : q * p <= is_frames s < (q + 1) * p) by nia. clear D B Q.
  rewrite write_parts_ok; [|exact W|exact P|lia|lia|intros j e _ []]. cbn [app]. rewrite type_map_lines.
  eexists _, _. split; [reflexivity|]. set (k := if q * p =? is_frames s then q + 1 - 1 else q + 1).
  assert (K : is_frames s <= p * k < is_frames s + p). { subst k. destruct (q * p =? is_frames s) eqn:E; nia. }
  split; [exact (parts_hold s p k W P K)|]. split; [exact K|]. exact (names_nodup s p k).
Qed.

Lemma parts_one dir (s : @infoset F) : whole s -> ~ In (is_formula s) (map fd_name dir) ->
  exists parts, to_dir dir s None = (dir ++ [mkDir (is_formula s) (each_line (map fst (is_dict s))) parts], Ok tt) /\
  holds_set parts s (is_frames s) /\ map fst parts = (if is_frames s =? 0 then [] else [part_name 0]).
Proof.
  intros W N. unfold to_dir. rewrite fresh_dir by exact N. cbn [Z.to_nat Pos.to_nat].
  change (Pos.to_nat 1) with 1. destruct (Nat.eq_dec (is_frames s) 0) as [Z|Z].
  - cbn [seq write_parts]. rewrite Z. cbn. rewrite type_map_lines. exists []. split; [reflexivity|]. split; [|reflexivity].
    destruct s as [bx ty co et fa di fo n vi ea ma]. cbv [whole] in W. cbn in *. subst n. destruct W as (W1 & W2 & W3 & W4 & W5 & W6 & W7 & W8).
    apply length_zero_iff_nil in W1, W2, W3, W4, W5. subst.
    assert (E : forall A, @pieces A [] 0 []). { intros A. split; [reflexivity|]. split; [constructor|]. cbn. lia. }
    assert (O : forall key o, match o with Some l => length l = 0 | None => True end -> @held_opt F [] key o 0).
    { intros key [l|] H; [|constructor]. apply length_zero_iff_nil in H. subst. exists []. split; [reflexivity|apply E]. }
    unfold holds_set. cbn [is_box is_coord is_etot is_fatom is_types is_virial is_eatom is_magmom].
    do 4 (split; [apply O; reflexivity|]). split; [exists []; split; [reflexivity|apply E]|]. split; [now apply O|]. split; now apply O.
  - rewrite (write_parts_ok s 0 (is_frames s) W) with (r := 1) (i := 0); [|lia|lia|lia|intros j e _ []].
    rewrite type_map_lines. replace (0 * is_frames s =? is_frames s) with false by lia.
    replace (is_frames s =? 0) with false by lia. eexists. split; [reflexivity|]. split; [|reflexivity].
    apply (parts_hold s (is_frames s) 1 W); lia.
Qed.

Lemma parts_zero dir (s : @infoset F) : to_dir dir s (Some 0%Z) = (dir, Err ZeroDivisionError).
Proof. reflexivity. Qed.

Lemma parts_exist dir (s : @infoset F) o : o <> Some 0%Z -> In (is_formula s) (map fd_name dir) -> to_dir dir s o = (dir, Err FileExistsError).
Proof.
  intros O H. unfold to_dir.
  assert (existsb (fun d => String.eqb (fd_name d) (is_formula s)) dir = true) as X.
  { apply existsb_exists. apply in_map_iff in H. destruct H as (d & E & Hd). exists d. split; [exact Hd|]. apply String.eqb_eq. exact E. }
  rewrite X. destruct o as [p|]; [|reflexivity]. replace (p =? 0)%Z with false; [reflexivity|].
  symmetry. apply Z.eqb_neq. congruence.
Qed.

Lemma parts_negative dir (s : @infoset F) (p : Z) : whole s -> (p < 0)%Z -> ~ In (is_formula s) (map fd_name dir) ->
  exists parts, to_dir dir s (Some p) = (dir ++ [mkDir (is_formula s) (each_line (map fst (is_dict s))) parts], Ok tt) /\
  (if (Z.of_nat (is_frames s) <? - p)%Z then holds_set parts s (is_frames s) else parts = []).
Proof.
  intros W P N. destruct (Z.of_nat (is_frames s) <? - p)%Z eqn:B.
  - destruct (parts_one dir s W N) as (parts & E & H & _). exists parts. split; [|exact H]. rewrite <- E.
    unfold to_dir. replace (p =? 0)%Z with false by lia.
    assert (Z.of_nat (is_frames s) ÷ p = 0)%Z as ->. { apply Z.quot_small_iff; lia. }
    rewrite fresh_dir by exact N. cbn. reflexivity.
  - exists []. split; [|reflexivity]. unfold to_dir. replace (p =? 0)%Z with false by lia. rewrite fresh_dir by exact N.
    assert (Z.of_nat (is_frames s) ÷ p <= -1)%Z.
    { replace p with (- (- p))%Z by lia. rewrite Z.quot_opp_r by lia. assert (1 <= Z.of_nat (is_frames s) ÷ (- p))%Z; [|lia]. apply Z.quot_le_lower_bound; lia. }
    replace (Z.to_nat (Z.of_nat (is_frames s) ÷ p + 1)) with 0 by lia. cbn. now rewrite type_map_lines.
Qed.

End Parts.
