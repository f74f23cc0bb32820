(** Proofs about the memory of the descriptor functions: the loops of TildeModel simulated in memory. *)
From Verif Require Import HeapModel NestModel NestSpec NestProofs Arr TildeModel ScratchModel.
Open Scope nat_scope.

(** ** Loops *)
Lemma sim_fold {A S T} (f : S -> A -> result S) (g : T -> A -> hres T) (Rel : S -> T -> Prop) l :
  (forall a s t s', In a l -> Rel s t -> f s a = Ok s' -> exists t', g t a = HOk t' /\ Rel s' t') ->
  forall s t s', Rel s t -> foldM f l s = Ok s' -> exists t', hfold g l t = HOk t' /\ Rel s' t'.
Proof.
  induction l as [|a l IH]; intros H s t s' R E; cbn [foldM hfold] in *.
  - injection E as <-. exists t. auto.
  - destruct (f s a) as [s1|e] eqn:E1; [|discriminate]. cbn [bind] in E.
    destruct (H a s t s1 (or_introl eq_refl) R E1) as (t1 & G1 & R1). rewrite G1. cbn [hbind].
    apply (IH (fun a' s t s' Hi => H a' s t s' (or_intror Hi)) s1 t1 s' R1 E).
Qed.
Lemma lift_ok {A} (v : A) : lift (Ok v) = HOk v.
Proof. reflexivity. Qed.
Ltac step E := match type of E with bind ?r _ = Ok _ => let q := fresh "Q" in let v := fresh "v" in let e := fresh "e" in destruct r as [v|e] eqn:q; [cbn [bind] in E|discriminate]; rewrite ?q; cbn [lift hbind] end.

(** ** Cells of a table *)
Definition cell {A} (t : list (list A)) (r c : nat) : option A := match nth_error t r with Some l => nth_error l c | None => None end.
Lemma cell_bounds {A} (t : list (list A)) n m r c v : length t = n -> Forall (fun l => length l = m) t -> cell t r c = Some v -> r < n /\ c < m.
Proof.
  intros <- F. unfold cell. destruct (nth_error t r) as [l|] eqn:E; [|discriminate]. intros Hc. split.
  - apply nth_error_Some. congruence.
  - rewrite Forall_forall in F. rewrite <- (F l) by (eapply nth_error_In; eauto). apply nth_error_Some. congruence.
Qed.
Lemma put_cell {A} (t t' : list (list A)) n m r c v : length t = n -> Forall (fun l => length l = m) t ->
  bind (get t r) (fun l => bind (set l c v) (fun l' => set t r l')) = Ok t' ->
  r < n /\ c < m /\ length t' = n /\ Forall (fun l => length l = m) t' /\
  forall r' c', cell t' r' c' = if (r' =? r) && (c' =? c) then Some v else cell t r' c'.
Proof.
  intros Hn F E. destruct (get t r) as [l|] eqn:G; [|discriminate]. cbn [bind] in E. apply get_inv in G.
  destruct (set l c v) as [l'|] eqn:S1; [|discriminate]. cbn [bind] in E.
  apply set_inv in S1. destruct S1 as (Lc & Ll & Nl). apply set_inv in E. destruct E as (Lr & Lt & Nt).
  assert (length l = m) as Lm by (rewrite Forall_forall in F; apply F; eapply nth_error_In; eauto).
  split; [lia|]. split; [lia|]. split; [lia|]. split.
  - apply Forall_forall. intros y Hy. apply In_nth_error in Hy. destruct Hy as [j Hj]. rewrite Nt in Hj.
    destruct (j =? r); [injection Hj as <-; lia|]. rewrite Forall_forall in F. apply F. eapply nth_error_In; eauto.
  - intros r' c'. unfold cell. rewrite Nt. destruct (Nat.eqb_spec r' r) as [->|Hr]; cbn [andb]; [|reflexivity].
    rewrite Nl, G. destruct (c' =? c); reflexivity.
Qed.

(** ** Components *)
Lemma components_within leaf : forall idx, within leaf idx <-> In idx (components leaf).
Proof.
  unfold within. induction leaf as [|n leaf IH]; intros idx; cbn [components].
  - split; [intros H; inversion H; now left|intros [<-|[]]; constructor].
  - rewrite in_concat. split.
    + intros H. inversion H as [|i ? l ? Hi Hl]; subst. exists (map (cons i) (components leaf)). split.
      * apply in_map_iff. exists i. split; auto. apply in_seq. lia.
      * apply in_map. now apply IH.
    + intros (L & HL & Hi). apply in_map_iff in HL. destruct HL as (i & <- & Hs). apply in_map_iff in Hi. destruct Hi as (l & <- & Hl).
      apply in_seq in Hs. constructor; [lia|]. now apply IH.
Qed.
Lemma last_here r c v (comps : list (list nat)) idx : forall old,
  last_written (r :: c :: idx) (map (fun l => (r :: c :: l, v l)) comps) old = (if in_dec (list_eq_dec Nat.eq_dec) idx comps then Some (v idx) else old : option Z).
Proof.
  induction comps as [|l comps IH]; intros old; cbn [map last_written]; [reflexivity|]. rewrite IH.
  destruct (in_dec _ idx comps) as [Hi|Hi]; destruct (in_dec _ idx (l :: comps)) as [Hj|Hj]; auto.
  - destruct Hj. now right.
  - destruct Hj as [->|Hj]; [|easy]. destruct list_eq_dec as [_|N]; [reflexivity|]. now destruct N.
  - destruct list_eq_dec as [E|N]; [|reflexivity]. injection E as ->. destruct Hj. now left.
Qed.
Lemma last_there r c (v : list nat -> Z) (comps : list (list nat)) r' c' idx : (r' =? r) && (c' =? c) = false -> forall old,
  last_written (r' :: c' :: idx) (map (fun l => (r :: c :: l, v l)) comps) old = old.
Proof.
  intros N. induction comps as [|l comps IH]; intros old; cbn [map last_written]; [reflexivity|]. rewrite IH.
  destruct list_eq_dec as [E|]; [|reflexivity]. injection E as -> -> _. rewrite !Nat.eqb_refl in N. discriminate.
Qed.

Section Proofs.
Variables (leaf : list nat) (row : vec -> list nat -> Z) (checks : bool).
Variables (inum : nat) (ilist numneigh : list nat) (firstneigh : list (list nat)) (x : list vec) (types : list nat).
Notation V := (list nat -> Z).

(** What the contents [f] of an array have to do with a table; [d] says which cells have a value. *)
Definition rel {A} (d : A -> option V) (n m : nat) (t : list (list A)) (f : list nat -> option Z) : Prop :=
  length t = n /\ Forall (fun l => length l = m) t /\
  forall r c a v idx, cell t r c = Some a -> d a = Some v -> within leaf idx -> f (r :: c :: idx) = Some (v idx).

Lemma put_mem {A} (d : A -> option V) n m t t' f h b own r c (a : A) v :
  tree h (n :: m :: leaf) b own f -> NoDup own -> rel d n m t f -> d a = Some v ->
  bind (get t r) (fun l => bind (set l c a) (fun l' => set t r l')) = Ok t' ->
  exists h' f', writes h b (map (fun l => (r :: c :: l, v l)) (components leaf)) = HOk h' /\ length h' = length h /\
    agree (fun y => ~ In y own) h h' /\ tree h' (n :: m :: leaf) b own f' /\ rel d n m t' f'.
Proof.
  intros T ND (Ln & F & C) Da E. destruct (put_cell _ _ n m r c a Ln F E) as (Hr & Hc & Ln' & F' & C').
  destruct (writes_tree (n :: m :: leaf) own (map (fun l => (r :: c :: l, v l)) (components leaf)) h b f T ND) as (h' & E' & L' & A' & T').
  { apply Forall_map, Forall_forall. intros l Hl. cbn [fst]. constructor; [lia|]. constructor; [lia|]. now apply components_within. }
  exists h', (fun idx => last_written idx (map (fun l => (r :: c :: l, v l)) (components leaf)) (f idx)).
  split; [exact E'|]. split; [exact L'|]. split; [exact A'|]. split; [exact T'|]. split; [exact Ln'|]. split; [exact F'|].
  intros r' c' a' v' idx Hcell Hd Hw. rewrite C' in Hcell. destruct ((r' =? r) && (c' =? c)) eqn:B.
  - injection Hcell as <-. apply andb_true_iff in B. destruct B as [B1 B2]. apply Nat.eqb_eq in B1, B2. subst r' c'.
    rewrite last_here. assert (v' = v) as -> by congruence. destruct in_dec as [_|N]; [reflexivity|]. destruct N. now apply components_within.
  - rewrite last_there by exact B. eapply C; eauto.
Qed.

(** ** One pair of species *)
Definition paired (h0 : heap) (n m b : nat) (own : list nat) (s : list (list V) * nat) (t : heap * nat) : Prop :=
  snd s = snd t /\ length (fst t) = length h0 /\ agree (fun y => ~ In y own) h0 (fst t) /\
  exists f, tree (fst t) (n :: m :: leaf) b own f /\ rel Some n m (fst s) f.

Lemma neigh_sim h0 n m b own na pc ii cidx jj s t s' : NoDup own -> paired h0 n m b own s t ->
  pair_neigh row firstneigh x types na pc ii cidx s jj = Ok s' ->
  exists t', mem_neigh leaf row firstneigh x types b na pc ii cidx t jj = HOk t' /\ paired h0 n m b own s' t'.
Proof.
  intros ND (Es & L & A & f & T & R) E. destruct s as [a nidx], t as [h k]. cbn [fst snd] in *. subst k.
  unfold pair_neigh in E. unfold mem_neigh. step E. step E. step E. destruct (negb _).
  - injection E as <-. eexists. split; [reflexivity|]. split; [reflexivity|]. cbn [fst snd]. eauto 6.
  - step E.
    assert (exists a', bind (get a cidx) (fun l1 => bind (set l1 nidx (row (vsub v2 pc))) (fun l' => set a cidx l')) = Ok a' /\ s' = (a', nidx + 1)) as (a' & Ea & ->).
    { destruct (get a cidx); [|discriminate]. cbn [bind] in *. destruct (set _ nidx _); [|discriminate]. cbn [bind] in *.
      destruct (set a cidx _) as [a'|]; [|discriminate]. cbn [bind] in E. injection E as <-. eauto. }
    destruct (put_mem Some n m a a' f h b own cidx nidx _ (row (vsub v2 pc)) T ND R eq_refl Ea) as (h' & f' & W & L' & A' & T' & R').
    rewrite W. cbn [hbind]. eexists. split; [reflexivity|]. split; [reflexivity|]. cbn [fst snd]. split; [lia|].
    split; [intros y Hy; rewrite A', A; auto|eauto].
Qed.
Lemma centre_sim h0 n m b own ca na nn mx ii s t s' : NoDup own -> paired h0 n m b own s t ->
  pair_centre row ilist numneigh firstneigh x types ca na nn mx s ii = Ok s' ->
  exists t', mem_centre leaf row ilist numneigh firstneigh x types b ca na nn mx t ii = HOk t' /\ paired h0 n m b own s' t'.
Proof.
  intros ND P E. destruct s as [a cidx], t as [h k]. assert (k = cidx) as -> by (symmetry; exact (proj1 P)).
  unfold pair_centre in E. unfold mem_centre. step E. step E. step E. destruct (negb _).
  - injection E as <-. eexists. split; [reflexivity|exact P].
  - destruct (nn <? mx); [discriminate|]. step E. step E. injection E as <-.
    destruct (sim_fold _ (mem_neigh leaf row firstneigh x types b na v0 ii cidx) (paired h0 n m b own) _
      (fun jj s t s' _ => neigh_sim h0 n m b own na v0 ii cidx jj s t s' ND) (a, 0) (h, 0) _ (conj eq_refl (proj2 P)) Q3) as (t' & G & P').
    rewrite G. cbn [hbind]. eexists. split; [reflexivity|]. split; [reflexivity|exact (proj2 P')].
Qed.

(** The number of rows filled is the number counted at the beginning. *)
Lemma rows_counted ca na nn mx l : forall a k s', foldM (pair_centre row ilist numneigh firstneigh x types ca na nn mx) l (a, k) = Ok s' ->
  foldM (fun n ii => bind (get ilist ii) (fun c => bind (get types c) (fun t => Ok (if t =? ca then n + 1 else n)))) l k = Ok (snd s').
Proof.
  induction l as [|ii l IH]; intros a k s' E; cbn [foldM] in *; [injection E as <-; reflexivity|].
  step E. unfold pair_centre in Q. step Q. step Q. step Q. cbn [bind]. rewrite ?Q1, ?Q2. cbn [bind].
  destruct (v2 =? ca); cbn [negb] in Q.
  - destruct (nn <? mx); [discriminate|]. step Q. step Q. injection Q as <-. eapply IH; eauto.
  - injection Q as <-. eapply IH; eauto.
Qed.

Lemma pair_mem ca na nn p h : pair_generate row (fun _ => 0%Z) inum ilist numneigh firstneigh x types ca na nn = Ok p ->
  exists nc h' f, num_centres inum ilist types ca = Ok nc /\
    mem_pair leaf row checks inum ilist numneigh firstneigh x types ca na nn h = HOk (S (length h), h') /\
    length h' = S (length h) + block_count (nc :: nn :: leaf) /\
    agree (fun y => y < length h) h h' /\ nth_error h' (length h) = Some None /\
    tree h' (nc :: nn :: leaf) (S (length h)) (seq (S (length h)) (block_count (nc :: nn :: leaf))) f /\ rel Some nc nn p f.
Proof.
  intros E. unfold pair_generate in E. unfold mem_pair, malloc. step E. exists v.
  set (h1 := h ++ [Some (repeat None 3)]). assert (length h1 = S (length h)) as L1 by (unfold h1; rewrite app_length; cbn; lia).
  destruct (allocate_tree (v :: nn :: leaf) true h1 ltac:(discriminate)) as (h2 & E2 & L2 & A2 & T2). rewrite E2. cbn [hbind].
  rewrite L1 in *. step E. step E. injection E as <-.
  set (own := seq (S (length h)) (block_count (v :: nn :: leaf))) in *.
  assert (NoDup own) as ND by apply seq_NoDup.
  destruct (sim_fold _ (mem_centre leaf row ilist numneigh firstneigh x types (S (length h)) ca na nn v0) (paired h2 v nn (S (length h)) own) (seq 0 inum)
    (fun ii s t s' _ => centre_sim h2 v nn (S (length h)) own ca na nn v0 ii s t s' ND) (repeat (repeat (fun _ => 0%Z) nn) v, 0) (h2, 0) v1) as (t & G & P).
  { split; [reflexivity|]. split; [reflexivity|]. split; [easy|]. exists (fun _ => Some 0%Z). split; [exact T2|].
    split; [apply repeat_length|]. split; [apply Forall_forall; intros l Hl; apply repeat_spec in Hl; subst; apply repeat_length|].
    intros r c a w idx Hc Hd _. cbn [fst] in Hc. injection Hd as <-. unfold cell in Hc. destruct (nth_error _ r) eqn:Er; [|discriminate].
    apply nth_error_In, repeat_spec in Er. subst. apply nth_error_In, repeat_spec in Hc. now subst. }
  { exact Q1. }
  rewrite G. cbn [hbind]. pose proof (rows_counted _ _ _ _ _ _ _ _ Q1) as N. unfold num_centres in Q. rewrite Q in N. injection N as N.
  destruct P as (P1 & P2 & P3 & f & P4 & P5). rewrite <- P1, <- N, Nat.eqb_refl, andb_false_r.
  assert (nth_error (fst t) (length h) = Some (Some (repeat None 3))) as Ed.
  { rewrite P3 by (unfold own; rewrite in_seq; lia). rewrite A2 by lia. unfold h1. rewrite nth_error_app2, Nat.sub_diag by lia. reflexivity. }
  cbn [hfree]. rewrite Ed. cbn [hbind]. exists (replace (fst t) (length h) None), f.
  split; [reflexivity|]. split; [reflexivity|]. split; [rewrite replace_length; lia|]. split; [|split; [|split; [|exact P5]]].
  - intros y Hy. rewrite nth_replace_other by lia. rewrite P3 by (unfold own; rewrite in_seq; lia). rewrite A2 by lia. unfold h1. now rewrite nth_error_app1 by lia.
  - apply nth_replace_same. rewrite P2, L2. lia.
  - eapply tree_frame; [|exact P4]. intros y Hy. apply nth_replace_other. unfold own in Hy. apply in_seq in Hy. lia.
Qed.

(** ** Copying a block *)
Lemma copy_comps h p dimsp ownp fp b own n m f kk ll r c (v : V) comps :
  tree h dimsp p ownp fp -> (forall y, In y ownp -> ~ In y own) -> NoDup own -> tree h (n :: m :: leaf) b own f ->
  (forall l, In l comps -> within leaf l /\ within dimsp (kk :: ll :: l) /\ fp (kk :: ll :: l) = Some (v l)) -> r < n -> c < m ->
  hfold (fun h l => hbind (read_at h p (kk :: ll :: l)) (fun w => write_at h b (r :: c :: l) w)) comps h =
  writes h b (map (fun l => (r :: c :: l, v l)) comps).
Proof.
  intros Tp Dj ND T H Hr Hc. revert h f Tp T H. induction comps as [|l comps IH]; intros h f Tp T H; [reflexivity|]. cbn [hfold map writes].
  destruct (H l (or_introl eq_refl)) as (W1 & W2 & Ef). pose proof (read_spec _ _ _ _ _ _ Tp W2) as Rd. unfold gives in Rd. rewrite Ef in Rd.
  rewrite Rd. cbn [hbind].
  destruct (write_spec (n :: m :: leaf) h b own f (r :: c :: l) (v l) T ND) as (h1 & E1 & L1 & A1 & T1).
  { constructor; [lia|]. now constructor. }
  rewrite E1. cbn [hbind]. eapply IH; [|exact T1|].
  - eapply tree_frame; [|exact Tp]. intros y Hy. apply A1, Dj, Hy.
  - intros l' Hl'. apply H. now right.
Qed.

Definition target (h0 : heap) (n m b : nat) (own : list nat) (a : list (list (option V))) (h : heap) : Prop :=
  length h = length h0 /\ agree (fun y => ~ In y own) h0 h /\
  exists f, tree h (n :: m :: leaf) b own f /\ rel (fun o => o) n m a f.

Lemma copy_sim h0 n m b own nc nn cs ns p q fp ownp a h a' : NoDup own -> (forall y, In y ownp -> ~ In y own) ->
  tree h0 (nc :: nn :: leaf) q ownp fp -> rel Some nc nn p fp ->
  target h0 n m b own a h -> copy_block nc nn cs ns p a = Ok a' ->
  exists h', mem_copy leaf nc nn cs ns q b h = HOk h' /\ target h0 n m b own a' h'.
Proof.
  intros ND Dj Tp Rp P E. unfold mem_copy. unfold copy_block in E.
  refine (sim_fold _ _ (target h0 n m b own) _ _ a h a' P E). clear a h a' P E. intros kk a h a' Hk P E. apply in_seq in Hk.
  refine (sim_fold _ _ (target h0 n m b own) _ _ a h a' P E). clear a h a' P E. intros ll a h a' Hl P E. apply in_seq in Hl.
  destruct P as (L & A & f & T & R). step E. step E.
  apply get_inv in Q, Q0. destruct Rp as (Lp & Fp & Cp).
  destruct (put_mem (fun o => o) n m a a' f h b own (cs + kk) (ns + ll) (Some v0) v0 T ND R eq_refl E) as (h' & f' & W & L' & A' & T' & R').
  destruct (put_cell a a' n m (cs + kk) (ns + ll) (Some v0) (proj1 R) (proj1 (proj2 R)) E) as (Hr & Hc & _).
  exists h'. split; [|split; [lia|split; [intros y Hy; rewrite A', A; auto|eauto]]]. rewrite <- W.
  eapply (copy_comps h q (nc :: nn :: leaf) ownp fp b own n m f kk ll (cs + kk) (ns + ll) v0); auto.
  - eapply tree_frame; [|exact Tp]. intros y Hy. apply A, Dj, Hy.
  - intros l Hin. apply components_within in Hin. split; [exact Hin|]. split; [constructor; [lia|]; constructor; [lia|exact Hin]|].
    apply (Cp kk ll v0 v0 l); auto. unfold cell. now rewrite Q.
Qed.

(** ** All pairs *)
Definition inside (hB : heap) (n m b : nat) (own : list nat) (a : list (list (option V))) (h : heap) : Prop :=
  length hB <= length h /\ agree (fun y => y < length hB /\ ~ In y own) hB h /\ (forall y, length hB <= y -> ~ alive h y) /\
  exists f, tree h (n :: m :: leaf) b own f /\ rel (fun o => o) n m a f.

Lemma mapM_nth {A B} (g : A -> result B) l : forall r, mapM g l = Ok r -> length r = length l /\ forall i y, nth_error l i = Some y -> exists z, g y = Ok z /\ nth_error r i = Some z.
Proof.
  induction l as [|y l IH]; intros r E; cbn [mapM] in E; [injection E as <-; split; [reflexivity|intros [|i] ? [=]]|].
  destruct (g y) as [z|] eqn:G; [|discriminate]. cbn [bind] in E. destruct (mapM g l) as [zs|] eqn:M; [|discriminate]. injection E as <-.
  destruct (IH zs eq_refl) as [L H]. split; [cbn; lia|]. intros [|i] w Hw; cbn in *; [injection Hw as <-; eauto|auto].
Qed.
Lemma ptr_get h b l i v : nth_error h b = Some (Some (ptrs l)) -> get l i = Ok v -> load_ptr h b i = HOk v.
Proof.
  intros Hb G. apply get_inv in G. rewrite (ptr_read h b l i Hb) by (apply nth_error_Some; congruence). f_equal. now apply nth_error_nth.
Qed.

Lemma blocks_sim hB n m b own pc ps pn ncl centres neighs nnl a0 a' h : leaf <> [] ->
  NoDup own -> (forall y, In y own -> y < length hB) ->
  ~ In pc own -> ~ In ps own -> ~ In pn own ->
  nth_error hB pc = Some (Some (ptrs ncl)) -> nth_error hB ps = Some (Some (ptrs (starts ncl))) -> nth_error hB pn = Some (Some (ptrs (starts nnl))) ->
  mapM (num_centres inum ilist types) centres = Ok ncl ->
  inside hB n m b own a0 h ->
  foldM (fun a ii => foldM (fun a jj =>
    bind (get centres ii) (fun ca => bind (get neighs jj) (fun na => bind (get nnl jj) (fun nn => bind (get ncl ii) (fun nc =>
    bind (get (starts ncl) ii) (fun cs => bind (get (starts nnl) jj) (fun ns =>
    bind (pair_generate row (fun _ => 0%Z) inum ilist numneigh firstneigh x types ca na nn) (fun p => copy_block nc nn cs ns p a)))))))) (seq 0 (length neighs)) a)
    (seq 0 (length centres)) a0 = Ok a' ->
  exists h', mem_blocks leaf row checks inum ilist numneigh firstneigh x types pc ps pn b centres neighs nnl h = HOk h' /\ inside hB n m b own a' h'.
Proof.
  intros Hleaf ND Ow Npc Nps Npn Bpc Bps Bpn M I E. unfold mem_blocks.
  assert (forall q, nth_error hB q <> None -> q < length hB) as Lt by (intros q; apply nth_error_Some).
  assert (pc < length hB) as Lpc by (apply Lt; congruence). assert (ps < length hB) as Lps by (apply Lt; congruence). assert (pn < length hB) as Lpn by (apply Lt; congruence).
  refine (sim_fold _ _ (inside hB n m b own) _ _ a0 h a' I E). clear a0 h a' I E. intros ii a h a' _ I E.
  refine (sim_fold _ _ (inside hB n m b own) _ _ a h a' I E). clear a h a' I E. intros jj a h a' _ I E.
  step E. step E. step E. step E. step E. step E. step E.
  destruct I as (LB & A & Dead & f & T & R).
  destruct (pair_mem v v0 v1 v5 h Q5) as (nc & h1 & fp & N & E1 & L1 & A1 & F1 & T1 & R1). rewrite E1. cbn [hbind].
  destruct (mapM_nth _ _ _ M) as [_ Mn]. destruct (Mn ii v (get_inv _ _ _ Q)) as (nc' & N' & Ni).
  assert (nc' = nc) as -> by congruence. assert (v2 = nc) as -> by (apply get_inv in Q2; congruence).
  assert (forall q c, q < length hB -> ~ In q own -> nth_error hB q = c -> nth_error h1 q = c) as Old.
  { intros q c Hq Hn Hc. rewrite A1 by lia. rewrite A by auto. exact Hc. }
  rewrite (ptr_get h1 pc ncl ii nc (Old _ _ Lpc Npc Bpc) Q2). cbn [hbind].
  rewrite (ptr_get h1 ps (starts ncl) ii v3 (Old _ _ Lps Nps Bps) Q3). cbn [hbind].
  rewrite (ptr_get h1 pn (starts nnl) jj v4 (Old _ _ Lpn Npn Bpn) Q4). cbn [hbind].
  set (ownp := seq (S (length h)) (block_count (nc :: v1 :: leaf))) in *.
  assert (forall y, In y ownp -> ~ In y own) as Dj by (intros y Hy Ho; apply in_seq in Hy; apply Ow in Ho; lia).
  destruct (copy_sim h1 n m b own nc v1 v3 v4 v5 (S (length h)) fp ownp a h1 a' ND Dj T1 R1) as (h2 & E2 & L2 & A2 & f2 & T2 & R2).
  { split; [reflexivity|]. split; [easy|]. exists f. split; [|exact R]. eapply tree_frame; [|exact T]. intros y Hy. apply A1. apply Ow in Hy. lia. }
  { exact E. }
  rewrite E2. cbn [hbind].
  assert (tree h2 (nc :: v1 :: leaf) (S (length h)) ownp fp) as T2p.
  { eapply tree_frame; [|exact T1]. intros y Hy. apply A2, Dj, Hy. }
  destruct (free_spec _ _ _ _ _ T2p (seq_NoDup _ _)) as (h3 & E3 & L3 & A3 & F3).
  assert (free_nested (nc :: v1 :: removelast leaf) h2 (S (length h)) = HOk h3) as E3' by (destruct leaf; [easy|exact E3]).
  exists h3. split; [exact E3'|]. split; [lia|]. split; [|split].
    + intros y [Hy Hn]. rewrite A3 by (unfold ownp; rewrite in_seq; lia). rewrite A2 by exact Hn. rewrite A1 by lia. apply A. auto.
    + intros y Hy [c Hc]. destruct (Nat.lt_ge_cases y (S (length h))) as [Hlt|Hge].
      * rewrite A3 in Hc by (unfold ownp; rewrite in_seq; lia). rewrite A2 in Hc by (intros Ho; apply Ow in Ho; lia).
        destruct (Nat.eq_dec y (length h)) as [->|Hne]; [congruence|]. rewrite A1 in Hc by lia. apply (Dead y Hy). exists c. exact Hc.
      * destruct (Nat.lt_ge_cases y (length h3)) as [Hlt|Hge'].
        -- rewrite F3 in Hc by (unfold ownp; apply in_seq; lia). discriminate.
        -- apply nth_error_None in Hge'. congruence.
    + exists f2. split; [|exact R2]. eapply tree_frame; [|exact T2]. intros y Hy. apply A3. intros Hp. exact (Dj y Hp Hy).
Qed.
End Proofs.
