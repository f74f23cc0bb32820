(** Lemmas about the block descriptor. *)
From Verif Require Import TildeModel TildeSpec SlotSpec SlotProofs TextProofs.
Open Scope nat_scope.
Local Arguments list_sum : simpl never.

Section Tilde.
Context {V : Type}.
Variables (row : vec -> V) (zero : V).
Variables (inum : nat) (ilist numneigh : list nat) (firstneigh : list (list nat)) (x : list vec) (types : list nat).
Hypothesis Hok : lists_ok inum ilist numneigh firstneigh x types.

Local Notation ty := (type_of types).
Local Notation nbs := (neighbours numneigh firstneigh).
Local Notation nbt := (neighbours_of_type numneigh firstneigh types).
Local Notation cen := (centres_of_type inum ilist types).
Local Notation pad := (padded row zero ilist numneigh firstneigh x types).

Lemma num_centres_ok ca : num_centres inum ilist types ca = Ok (length (cen ca)).
Proof using Hok.
  destruct Hok as (A & _ & _ & B & _). unfold num_centres, centres_of_type.
  assert (G : forall l k, Forall (fun i => i < inum) l ->
    foldM (fun n ii => bind (get ilist ii) (fun c => bind (get types c) (fun t => Ok (if t =? ca then n + 1 else n)))) l k =
    Ok (k + length (filter (fun i => ty (nth i ilist 0) =? ca) l))).
  { induction l as [|i l IH]; intros k F; [cbn; f_equal; lia|]. inversion F; subst. cbn [foldM filter].
    destruct (B i ltac:(assumption)) as (B1 & B2 & B3).
    rewrite (get_ok ilist i 0) by lia. cbn [bind]. rewrite (get_ok types _ 0) by lia. cbn [bind].
    rewrite IH by assumption. unfold type_of. destruct (_ =? ca); cbn [length]; f_equal; lia. }
  rewrite G; [reflexivity|]. apply Forall_forall. intros i I. apply in_seq in I. lia.
Qed.

(** A loop over the counted neighbours is a loop over the atoms. *)
Lemma neigh_loop {S} (f : S -> nat -> result S) i s : i < inum ->
  foldM (fun s jj => bind (get firstneigh i) (fun r => bind (get r jj) (fun idx => f s idx))) (seq 0 (nth i numneigh 0)) s =
  foldM f (nbs i) s.
Proof using Hok.
  intros I. destruct Hok as (_ & _ & C & B & _). destruct (B i I) as (_ & _ & L). unfold neighbours.
  set (r := nth i firstneigh []) in *. set (n := nth i numneigh 0) in *. clearbody n.
  rewrite (foldM_ext _ (fun s jj => bind (get r jj) (fun idx => f s idx))).
  2:{ intros a _ s'. rewrite (get_ok firstneigh i []) by lia. reflexivity. }
  clearbody r. revert r s L. induction n as [|n IH]; intros r s L; [reflexivity|]. destruct r as [|b r]; [cbn in L; lia|].
  cbn [seq foldM firstn]. cbn [get nth_error bind]. destruct (f s b) as [s'|e]; [|reflexivity]. cbn [bind].
  rewrite <- seq_shift, foldM_map. rewrite <- IH by (cbn in L; lia). reflexivity.
Qed.

Lemma num_typed_ok na i : i < inum -> num_typed numneigh firstneigh types na i = Ok (length (nbt i na)).
Proof using Hok.
  intros I. destruct Hok as (_ & C & _ & _ & D). unfold num_typed. rewrite (get_ok numneigh i 0) by lia. cbn [bind].
  rewrite (neigh_loop (fun k idx => bind (get types idx) (fun t => Ok (if t =? na then k + 1 else k))) i 0 I).
  unfold neighbours_of_type. assert (F : Forall (fun b => b < length types) (nbs i)).
  { apply Forall_forall. intros b Hb. apply (D i b I Hb). }
  assert (G : forall l k, Forall (fun b => b < length types) l ->
    foldM (fun k idx => bind (get types idx) (fun t => Ok (if t =? na then k + 1 else k))) l k = Ok (k + length (filter (fun b => ty b =? na) l))).
  { induction l as [|b l IH]; intros k F0; [cbn; f_equal; lia|]. inversion F0; subst. cbn [foldM filter].
    rewrite (get_ok types b 0) by assumption. cbn [bind]. rewrite IH by assumption. unfold type_of. destruct (_ =? na); cbn [length]; f_equal; lia. }
  rewrite G by exact F. reflexivity.
Qed.

(** Maximum over a list of centres. *)
Definition maxn (l : list nat) : nat := fold_left Nat.max l 0.
Lemma max_loop {A} (f : A -> nat) (l : list A) : forall m, foldM (fun m i => Ok (if m <? f i then f i else m)) l m = Ok (fold_left Nat.max (map f l) m).
Proof.
  induction l as [|i l IH]; intros m; [reflexivity|]. cbn [foldM map fold_left bind]. rewrite IH. do 2 f_equal.
  destruct (Nat.ltb_spec m (f i)); lia.
Qed.
Lemma fold_max_ge l : forall m, m <= fold_left Nat.max l m /\ forall y, In y l -> y <= fold_left Nat.max l m.
Proof.
  induction l as [|z l IH]; intros m; cbn; [split; [lia|intros ? []]|]. destruct (IH (Nat.max m z)) as [A B]. split; [lia|].
  intros y [->|H]; [lia|apply B, H].
Qed.
Lemma fold_max_in l : forall m, fold_left Nat.max l m = m \/ In (fold_left Nat.max l m) l.
Proof.
  induction l as [|z l IH]; intros m; cbn; [left; reflexivity|]. destruct (IH (Nat.max m z)) as [A|A]; [|right; right; exact A].
  rewrite A. destruct (Nat.max_spec m z) as [[_ ->]|[_ ->]]; [right; left; reflexivity|left; reflexivity].
Qed.

Lemma max_typed_ok ca na : max_typed inum ilist numneigh firstneigh types ca na = Ok (maxn (map (fun i => length (nbt i na)) (cen ca))).
Proof using Hok.
  unfold max_typed, centres_of_type, maxn. assert (F : Forall (fun i => i < inum) (seq 0 inum)) by (apply Forall_forall; intros i I; apply in_seq in I; lia).
  assert (G : forall l m, Forall (fun i => i < inum) l ->
    foldM (fun m ii => bind (get ilist ii) (fun c => bind (get types c) (fun t =>
      if t =? ca then bind (num_typed numneigh firstneigh types na ii) (fun k => Ok (if m <? k then k else m)) else Ok m))) l m =
    Ok (fold_left Nat.max (map (fun i => length (nbt i na)) (filter (fun i => ty (nth i ilist 0) =? ca) l)) m)); [|apply G, F].
  clear F. induction l as [|i l IH]; intros m F; [reflexivity|].
  inversion F as [|? ? I F']; subst. destruct Hok as (A & _ & _ & B & _). destruct (B i I) as (B1 & _ & _). cbn [foldM filter].
  rewrite (get_ok ilist i 0) by lia. cbn [bind]. rewrite (get_ok types _ 0) by lia. cbn [bind].
  change (nth (nth i ilist 0) types 0) with (ty (nth i ilist 0)). destruct (ty (nth i ilist 0) =? ca).
  - rewrite num_typed_ok by exact I. cbn [bind map fold_left]. rewrite IH by exact F'. do 2 f_equal. destruct (Nat.ltb_spec m (length (nbt i na))); lia.
  - cbn [bind]. apply IH, F'.
Qed.

(** The inner loop fills one row. *)
Lemma pair_inner na pc u v : forall l w k, Forall (fun b => b < length types /\ b < length x) l ->
  length (filter (fun b => ty b =? na) l) <= k ->
  foldM (fun st idx => bind (get types idx) (fun t => if negb (t =? na) then Ok st
     else bind (get x idx) (fun pn => bind (get (fst st) (length u)) (fun arow => bind (set arow (snd st) (row (vsub pn pc))) (fun arow' =>
          bind (set (fst st) (length u) arow') (fun a' => Ok (a', snd st + 1))))))) l (u ++ (w ++ repeat zero k) :: v, length w) =
  Ok (u ++ (w ++ map (fun b => row (vsub (position x b) pc)) (filter (fun b => ty b =? na) l) ++ repeat zero (k - length (filter (fun b => ty b =? na) l))) :: v,
      length w + length (filter (fun b => ty b =? na) l)).
Proof using.
  clear Hok. induction l as [|b l IH]; intros w k F H; cbn [foldM filter map].
  - cbn [length app]. rewrite Nat.sub_0_r, Nat.add_0_r. reflexivity.
  - inversion F as [|? ? [B1 B2] F']; subst. rewrite (get_ok types b 0) by exact B1. cbn [bind].
    change (nth b types 0) with (ty b). cbn [filter] in H. destruct (ty b =? na) eqn:E; cbn [negb].
    + cbn [length] in H. destruct k as [|k]; [lia|]. rewrite (get_ok x b (0, 0, 0)%R) by exact B2. cbn [bind fst snd].
      unfold get at 1. rewrite nth_error_app2 by lia. rewrite Nat.sub_diag. cbn [nth_error bind repeat].
      rewrite set_app. cbn [bind]. rewrite set_app. cbn [bind].
      change (nth b x (0, 0, 0)%R) with (position x b).
      assert (IHw := IH (w ++ [row (vsub (position x b) pc)]) k F' ltac:(lia)). rewrite app_length in IHw. cbn [length] in IHw.
      rewrite <- app_assoc in IHw. cbn [app] in IHw. rewrite IHw. rewrite <- app_assoc. cbn [app length map]. do 2 f_equal. lia.
    + cbn [bind]. apply IH; assumption.
Qed.

Lemma pair_centre_skip ca na nn mx i st : i < inum -> (ty (nth i ilist 0) =? ca) = false ->
  pair_centre row ilist numneigh firstneigh x types ca na nn mx st i = Ok st.
Proof using Hok.
  intros I E. destruct Hok as (A & _ & _ & B & _). destruct (B i I) as (B1 & B2 & _). unfold pair_centre. destruct st as [a cidx].
  rewrite (get_ok ilist i 0) by lia. cbn [bind]. rewrite (get_ok x _ (0, 0, 0)%R) by exact B2. cbn [bind].
  rewrite (get_ok types _ 0) by exact B1. cbn [bind]. change (nth (nth i ilist 0) types 0) with (ty (nth i ilist 0)). rewrite E. reflexivity.
Qed.

Lemma pair_centre_fill ca na nn mx i u v : i < inum -> (ty (nth i ilist 0) =? ca) = true -> mx <= nn -> length (nbt i na) <= nn ->
  pair_centre row ilist numneigh firstneigh x types ca na nn mx (u ++ repeat zero nn :: v, length u) i = Ok (u ++ pad i na nn :: v, length u + 1).
Proof using Hok.
  intros I E Hm Hl. assert (Hok' := Hok). destruct Hok' as (A & A2 & _ & B & D). destruct (B i I) as (B1 & B2 & _). unfold pair_centre.
  rewrite (get_ok ilist i 0) by lia. cbn [bind]. rewrite (get_ok x _ (0, 0, 0)%R) by exact B2. cbn [bind].
  rewrite (get_ok types _ 0) by exact B1. cbn [bind]. change (nth (nth i ilist 0) types 0) with (ty (nth i ilist 0)). rewrite E. cbn [negb].
  destruct (Nat.ltb_spec nn mx); [lia|]. rewrite (get_ok numneigh i 0) by lia. cbn [bind].
  rewrite (foldM_ext _ (fun st jj => bind (get firstneigh i) (fun r => bind (get r jj) (fun idx =>
     (fun st idx => bind (get types idx) (fun t => if negb (t =? na) then Ok st
     else bind (get x idx) (fun pn => bind (get (fst st) (length u)) (fun arow => bind (set arow (snd st) (row (vsub pn (nth (nth i ilist 0) x (0,0,0)%R)))) (fun arow' =>
          bind (set (fst st) (length u) arow') (fun a' => Ok (a', snd st + 1))))))) st idx)))).
  2:{ intros jj _ [a nidx]. unfold pair_neigh. cbn [fst snd]. destruct (get firstneigh i); [|reflexivity]. cbn [bind].
      destruct (get a0 jj); [|reflexivity]. cbn [bind]. destruct (get types a1); reflexivity. }
  rewrite neigh_loop by exact I.
  assert (P := pair_inner na (position x (nth i ilist 0)) u v (nbs i) [] nn). cbn [app length] in P.
  change (nth (nth i ilist 0) x (0, 0, 0)%R) with (position x (nth i ilist 0)).
  rewrite P; [|apply Forall_forall; intros b Hb; apply (D i b I Hb)|exact Hl].
  cbn [bind fst]. unfold padded, neighbours_of_type. reflexivity.
Qed.

Lemma pair_generate_ok ca na nn : (forall i, In i (cen ca) -> length (nbt i na) <= nn) ->
  pair_generate row zero inum ilist numneigh firstneigh x types ca na nn = Ok (map (fun i => pad i na nn) (cen ca)).
Proof using Hok.
  intros H. unfold pair_generate. rewrite num_centres_ok. cbn [bind]. rewrite max_typed_ok. cbn [bind].
  set (mx := maxn _). assert (M : mx <= nn).
  { unfold mx, maxn. destruct (fold_max_in (map (fun i => length (nbt i na)) (cen ca)) 0) as [->|I]; [lia|].
    apply in_map_iff in I. destruct I as (i & <- & I). apply H, I. }
  clearbody mx. assert (G : forall l u, Forall (fun i => i < inum /\ ((ty (nth i ilist 0) =? ca) = true -> length (nbt i na) <= nn)) l ->
    foldM (pair_centre row ilist numneigh firstneigh x types ca na nn mx) l (u ++ repeat (repeat zero nn) (length (filter (fun i => ty (nth i ilist 0) =? ca) l)), length u) =
    Ok (u ++ map (fun i => pad i na nn) (filter (fun i => ty (nth i ilist 0) =? ca) l), length u + length (filter (fun i => ty (nth i ilist 0) =? ca) l))).
  { induction l as [|i l IH]; intros u F; [cbn; rewrite Nat.add_0_r; reflexivity|]. inversion F as [|? ? [I L] F']; subst. cbn [foldM filter].
    destruct (ty (nth i ilist 0) =? ca) eqn:E.
    - cbn [length repeat map]. rewrite pair_centre_fill; [|exact I|exact E|exact M|apply L; reflexivity]. cbn [bind].
      specialize (IH (u ++ [pad i na nn]) F'). rewrite app_length in IH. cbn [length] in IH. rewrite <- !app_assoc in IH. cbn [app] in IH.
      rewrite IH. do 2 f_equal. lia.
    - rewrite pair_centre_skip by assumption. cbn [bind]. apply IH, F'. }
  specialize (G (seq 0 inum) []). cbn [app length] in G. unfold centres_of_type. rewrite G; [reflexivity|].
  apply Forall_forall. intros i I. split; [apply in_seq in I; lia|]. intros E. apply H. unfold centres_of_type. apply filter_In. split; assumption.
Qed.

Lemma pair_generate_bad ca na nn i : In i (cen ca) -> nn < length (nbt i na) ->
  pair_generate row zero inum ilist numneigh firstneigh x types ca na nn = Err AssertionError.
Proof using Hok.
  intros H L. unfold pair_generate. rewrite num_centres_ok. cbn [bind]. rewrite max_typed_ok. cbn [bind].
  set (mx := maxn _). assert (M : nn < mx).
  { assert (B := proj2 (fold_max_ge (map (fun i => length (nbt i na)) (cen ca)) 0) (length (nbt i na))).
    unfold mx, maxn. eapply Nat.lt_le_trans; [exact L|]. apply B. apply in_map_iff. exists i. split; [reflexivity|exact H]. }
  clearbody mx. unfold centres_of_type in H. apply filter_In in H. destruct H as [I E].
  assert (G : forall l st, Forall (fun i => i < inum) l -> In i l ->
     foldM (pair_centre row ilist numneigh firstneigh x types ca na nn mx) l st = Err AssertionError).
  { induction l as [|j l IH]; intros st F Hin; [inversion Hin|]. inversion F as [|? ? J F']; subst. cbn [foldM].
    destruct (ty (nth j ilist 0) =? ca) eqn:Ej.
    - assert (Hok' := Hok). destruct Hok' as (A & _ & _ & B & _). destruct (B j J) as (B1 & B2 & _). unfold pair_centre at 1. destruct st as [a c].
      rewrite (get_ok ilist j 0) by lia. cbn [bind]. rewrite (get_ok x _ (0, 0, 0)%R) by exact B2. cbn [bind].
      rewrite (get_ok types _ 0) by exact B1. cbn [bind]. change (nth (nth j ilist 0) types 0) with (ty (nth j ilist 0)). rewrite Ej. cbn [negb].
      destruct (Nat.ltb_spec nn mx); [reflexivity|lia].
    - rewrite pair_centre_skip by assumption. cbn [bind]. apply IH; [exact F'|]. destruct Hin as [->|Hin]; [congruence|exact Hin]. }
  rewrite G; [reflexivity| |exact I]. apply Forall_forall. intros j J. apply in_seq in J. lia.
Qed.

(** *** Placing the blocks *)

Lemma nth_concat {A} (ls : list (list A)) d : forall t p, t < length ls -> p < length (nth t ls []) ->
  nth (list_sum (firstn t (map (@length A) ls)) + p) (concat ls) d = nth p (nth t ls []) d.
Proof.
  induction ls as [|l ls IH]; intros t p T P; [cbn in T; lia|]. destruct t as [|t].
  - cbn [firstn map nth concat]. rewrite lsum_nil. cbn [Nat.add]. cbn in P. rewrite app_nth1 by exact P. reflexivity.
  - cbn [firstn map nth concat]. rewrite lsum_cons. rewrite app_nth2 by lia.
    replace (length l + list_sum (firstn t (map (length (A:=A)) ls)) + p - length l) with (list_sum (firstn t (map (length (A:=A)) ls)) + p) by lia.
    apply IH; [cbn in T; lia|exact P].
Qed.

Definition get2 {A} (a : list (list A)) (r c : nat) : option A := match nth_error a r with Some l => nth_error l c | None => None end.
Definition shaped {A} (R C : nat) (a : list (list A)) : Prop := length a = R /\ forall r l, nth_error a r = Some l -> length l = C.

Section Place.
Context {A : Type}.
Variables (R C : nat) (F : nat -> nat -> A).
Definition right_at (P : nat -> nat -> Prop) (a : list (list (option A))) : Prop :=
  shaped R C a /\ forall r c, P r c -> r < R -> c < C -> get2 a r c = Some (Some (F r c)).

Lemma put P a r c v : right_at P a -> r < R -> c < C -> v = F r c ->
  exists a', bind (get a r) (fun l => bind (set l c (Some v)) (fun l' => set a r l')) = Ok a' /\
  right_at (fun r' c' => P r' c' \/ r' = r /\ c' = c) a'.
Proof using.
  intros [[L S] G] Hr Hc ->. destruct (nth_error a r) as [l|] eqn:E; [|apply nth_error_None in E; lia].
  rewrite (get_some a r l E). cbn [bind]. assert (Ll := S r l E).
  destruct (set_ok l c (Some (F r c))) as (l' & E1 & L1 & N1); [lia|]. rewrite E1. cbn [bind].
  destruct (set_ok a r l') as (a' & E2 & L2 & N2); [lia|]. exists a'. split; [exact E2|].
  split; [split; [congruence|]|].
  - intros r' m. rewrite N2. destruct (Nat.eqb_spec r' r); [intros [= <-]; congruence|apply S].
  - intros r' c' H Hr' Hc'. unfold get2. rewrite N2. destruct (Nat.eqb_spec r' r) as [->|D].
    + rewrite N1. destruct (Nat.eqb_spec c' c) as [->|D']; [reflexivity|].
      destruct H as [H|[_ H]]; [|contradiction]. specialize (G r c' H Hr' Hc'). unfold get2 in G. rewrite E in G. exact G.
    + destruct H as [H|[H _]]; [|contradiction]. exact (G r' c' H Hr' Hc').
Qed.

Lemma run {I} (step : list (list (option A)) -> I -> result (list (list (option A)))) (Q : I -> nat -> nat -> Prop) l :
  (forall i a P, In i l -> right_at P a -> exists a', step a i = Ok a' /\ right_at (fun r c => P r c \/ Q i r c) a') ->
  forall a P, right_at P a -> exists a', foldM step l a = Ok a' /\ right_at (fun r c => P r c \/ exists i, In i l /\ Q i r c) a'.
Proof using.
  induction l as [|i l IH]; intros H a P G; [exists a; split; [reflexivity|]|].
  - destruct G as [S G]. split; [exact S|]. intros r c [X|(? & [] & _)]. apply G, X.
  - destruct (H i a P (or_introl eq_refl) G) as (a1 & E & G1). cbn [foldM]. rewrite E. cbn [bind].
    destruct (IH ltac:(intros; apply H; [right|]; assumption) a1 _ G1) as (a2 & E2 & S2 & G2). exists a2. split; [exact E2|].
    split; [exact S2|]. intros r c X. apply G2. destruct X as [X|(j & [->|J] & X)]; [left; left; exact X|left; right; exact X|].
    right. exists j. split; assumption.
Qed.

Lemma block nc nn cs ns p : cs + nc <= R -> ns + nn <= C ->
  (forall kk ll, kk < nc -> ll < nn -> exists pr, nth_error p kk = Some pr /\ nth_error pr ll = Some (F (cs + kk) (ns + ll))) ->
  forall a P, right_at P a -> exists a', copy_block nc nn cs ns p a = Ok a' /\
    right_at (fun r c => P r c \/ (cs <= r < cs + nc /\ ns <= c < ns + nn)) a'.
Proof using.
  intros Hc Hn Hp a P G. unfold copy_block.
  destruct (run (fun a kk => foldM (fun a ll =>
    bind (get p kk) (fun pr => bind (get pr ll) (fun v =>
    bind (get a (cs + kk)) (fun arow => bind (set arow (ns + ll) (Some v)) (fun arow' => set a (cs + kk) arow'))))) (seq 0 nn) a)
    (fun kk r c => r = cs + kk /\ ns <= c < ns + nn) (seq 0 nc)) with (a := a) (P := P) as (a' & E & S & G').
  - intros kk a1 P1 K G1. apply in_seq in K.
    destruct (run (fun a ll =>
      bind (get p kk) (fun pr => bind (get pr ll) (fun v =>
      bind (get a (cs + kk)) (fun arow => bind (set arow (ns + ll) (Some v)) (fun arow' => set a (cs + kk) arow')))))
      (fun ll r c => r = cs + kk /\ c = ns + ll) (seq 0 nn)) with (a := a1) (P := P1) as (a2 & E2 & S2 & G2).
    + intros ll a3 P3 L G3. apply in_seq in L. destruct (Hp kk ll ltac:(lia) ltac:(lia)) as (pr & X & Y).
      rewrite (get_some _ _ _ X). cbn [bind]. rewrite (get_some _ _ _ Y). cbn [bind].
      apply (put P3 a3 (cs + kk) (ns + ll)); [exact G3|lia|lia|reflexivity].
    + exact G1.
    + exists a2. split; [exact E2|]. split; [exact S2|]. intros r c X. apply G2. destruct X as [X|[X Y]]; [left; exact X|].
      right. exists (c - ns). split; [apply in_seq; lia|lia].
  - exact G.
  - exists a'. split; [exact E|]. split; [exact S|]. intros r c X. apply G'. destruct X as [X|[X Y]]; [left; exact X|].
    right. exists (r - cs). split; [apply in_seq; lia|lia].
Qed.
End Place.

Lemma map_flat_row centres neighs nnl : whole row zero inum ilist numneigh firstneigh x types centres neighs nnl =
  concat (map (fun ca => map (fun i => concat (map (fun nb => pad i (fst nb) (snd nb)) (combine neighs nnl))) (cen ca)) centres).
Proof.
  unfold whole. rewrite flat_map_concat_map. f_equal. apply map_ext. intros ca. apply map_ext. intros i. apply flat_map_concat_map.
Qed.

Lemma tilde_generate_ok centres neighs nnl : length neighs = length nnl ->
  (forall ca na nn i, In ca centres -> In (na, nn) (combine neighs nnl) -> In i (cen ca) -> length (nbt i na) <= nn) ->
  tilde_generate row zero inum ilist numneigh firstneigh x types centres neighs nnl =
  Ok (map (map Some) (whole row zero inum ilist numneigh firstneigh x types centres neighs nnl)).
Proof using Hok.
  intros LN H. unfold tilde_generate.
  set (ncl := map (fun ca => length (cen ca)) centres).
  assert (E1 : mapM (num_centres inum ilist types) centres = Ok ncl).
  { unfold ncl. clear H. induction centres as [|ca l IH]; [reflexivity|]. cbn [mapM map]. rewrite num_centres_ok. cbn [bind]. rewrite IH. reflexivity. }
  rewrite E1. cbn [bind]. rewrite !width_sum.
  set (rowof := fun i => concat (map (fun nb => pad i (fst nb) (snd nb)) (combine neighs nnl))).
  set (full := whole row zero inum ilist numneigh firstneigh x types centres neighs nnl).
  assert (Efull : full = concat (map (fun ca => map rowof (cen ca)) centres)) by (unfold full; rewrite map_flat_row; reflexivity).
  set (F := fun r c => nth c (nth r full []) zero).
  assert (LP : forall ca na nn i, In ca centres -> In (na, nn) (combine neighs nnl) -> In i (cen ca) -> length (pad i na nn) = nn).
  { intros ca na nn i A B D. unfold padded. rewrite app_length, map_length, repeat_length. specialize (H ca na nn i A B D). lia. }
  assert (Lrow : forall ca i, In ca centres -> In i (cen ca) -> map (@length V) (map (fun nb => pad i (fst nb) (snd nb)) (combine neighs nnl)) = nnl).
  { intros ca i A B. rewrite map_map. rewrite (map_ext_in _ snd).
    - clear - LN. revert nnl LN. induction neighs as [|n l IH]; intros [|m k] L; try discriminate; [reflexivity|]. cbn. f_equal. apply IH. cbn in L. lia.
    - intros [na nn] N. apply (LP ca na nn i A N B). }
  assert (Lcat : forall ls, length (concat ls) = list_sum (map (@length V) ls)).
  { induction ls as [|l ls IH]; [reflexivity|]. cbn [concat map]. rewrite app_length, lsum_cons, IH. reflexivity. }
  assert (Lens : map (@length (list V)) (map (fun ca => map rowof (cen ca)) centres) = ncl).
  { rewrite map_map. apply map_ext. intros ca. apply map_length. }
  assert (Lfull : length full = reserved ncl).
  { rewrite Efull. unfold reserved. rewrite <- Lens. generalize (map (fun ca => map rowof (cen ca)) centres). clear.
    induction l as [|l ls IH]; [reflexivity|]. cbn [concat map]. rewrite app_length, lsum_cons, IH. reflexivity. }
  assert (Lf : forall r l, nth_error full r = Some l -> length l = reserved nnl).
  { intros r l N. apply nth_error_In in N. rewrite Efull in N. apply in_concat in N. destruct N as (b & N & Hl). apply in_map_iff in N.
    destruct N as (ca & <- & N). apply in_map_iff in Hl. destruct Hl as (i & <- & I). unfold rowof. rewrite Lcat. rewrite (Lrow ca i N I). reflexivity. }
  assert (Fval : forall ii jj kk ll, ii < length centres -> jj < length neighs -> kk < nth ii ncl 0 -> ll < nth jj nnl 0 ->
     F (list_sum (firstn ii ncl) + kk) (list_sum (firstn jj nnl) + ll) =
     nth ll (pad (nth kk (cen (nth ii centres 0)) 0) (nth jj neighs 0) (nth jj nnl 0)) zero).
  { intros ii jj kk ll A B D E. unfold F. rewrite Efull, <- Lens at 1.
    assert (Nb : nth ii (map (fun ca => map rowof (cen ca)) centres) [] = map rowof (cen (nth ii centres 0))).
    { rewrite (nth_indep _ [] (map rowof (cen 0))) by (rewrite map_length; exact A). exact (map_nth (fun ca => map rowof (cen ca)) centres 0 ii). }
    assert (Nc : nth ii ncl 0 = length (cen (nth ii centres 0))).
    { unfold ncl. rewrite (nth_indep _ 0 (length (cen 0))) by (rewrite map_length; exact A). exact (map_nth (fun ca => length (cen ca)) centres 0 ii). }
    rewrite nth_concat; [|rewrite map_length; exact A|rewrite Nb, map_length; lia].
    rewrite Nb. rewrite (nth_indep _ [] (rowof 0)) by (rewrite map_length; lia). rewrite map_nth. unfold rowof.
    set (i := nth kk (cen (nth ii centres 0)) 0).
    assert (I : In i (cen (nth ii centres 0))) by (apply nth_In; lia).
    assert (Ca : In (nth ii centres 0) centres) by (apply nth_In; exact A).
    assert (Np : nth jj (map (fun nb => pad i (fst nb) (snd nb)) (combine neighs nnl)) [] = pad i (nth jj neighs 0) (nth jj nnl 0)).
    { rewrite (nth_indep _ [] (pad i (fst (0, 0)) (snd (0, 0)))) by (rewrite map_length, combine_length; lia).
      rewrite (map_nth (fun nb => pad i (fst nb) (snd nb)) (combine neighs nnl) (0, 0) jj). rewrite combine_nth by exact LN. reflexivity. }
    rewrite <- (Lrow _ i Ca I) at 1. rewrite nth_concat; [rewrite Np; reflexivity|rewrite map_length, combine_length; lia|].
    rewrite Np. rewrite (LP (nth ii centres 0) (nth jj neighs 0) (nth jj nnl 0) i Ca); [exact E| |exact I].
    rewrite <- (combine_nth neighs nnl jj 0 0 LN). apply nth_In. rewrite combine_length. lia. }
  assert (Lncl : length ncl = length centres) by apply map_length.
  destruct (run (reserved ncl) (reserved nnl) F (fun a ii => foldM (fun a jj =>
    bind (get centres ii) (fun ca => bind (get neighs jj) (fun na => bind (get nnl jj) (fun nn => bind (get ncl ii) (fun nc =>
    bind (get (starts ncl) ii) (fun cs => bind (get (starts nnl) jj) (fun ns =>
    bind (pair_generate row zero inum ilist numneigh firstneigh x types ca na nn) (fun p => copy_block nc nn cs ns p a)))))))) (seq 0 (length neighs)) a)
    (fun ii r c => list_sum (firstn ii ncl) <= r < list_sum (firstn ii ncl) + nth ii ncl 0) (seq 0 (length centres)))
    with (a := repeat (repeat (@None V) (reserved nnl)) (reserved ncl)) (P := fun _ _ : nat => False) as (a' & E & [L S] & G).
  - intros ii a P I G. apply in_seq in I.
    destruct (run (reserved ncl) (reserved nnl) F (fun a jj =>
      bind (get centres ii) (fun ca => bind (get neighs jj) (fun na => bind (get nnl jj) (fun nn => bind (get ncl ii) (fun nc =>
      bind (get (starts ncl) ii) (fun cs => bind (get (starts nnl) jj) (fun ns =>
      bind (pair_generate row zero inum ilist numneigh firstneigh x types ca na nn) (fun p => copy_block nc nn cs ns p a))))))))
      (fun jj r c => (list_sum (firstn ii ncl) <= r < list_sum (firstn ii ncl) + nth ii ncl 0) /\
                     list_sum (firstn jj nnl) <= c < list_sum (firstn jj nnl) + nth jj nnl 0) (seq 0 (length neighs)))
      with (a := a) (P := P) as (a2 & E2 & S2 & G2).
    + intros jj a3 P3 J G3. apply in_seq in J.
      rewrite (get_ok centres ii 0) by lia. cbn [bind]. rewrite (get_ok neighs jj 0) by lia. cbn [bind]. rewrite (get_ok nnl jj 0) by lia. cbn [bind].
      rewrite (get_ok ncl ii 0) by lia. cbn [bind]. rewrite starts_get by lia. cbn [bind]. rewrite starts_get by lia. cbn [bind].
      assert (Ca : In (nth ii centres 0) centres) by (apply nth_In; lia).
      assert (Nn : In (nth jj neighs 0, nth jj nnl 0) (combine neighs nnl)).
      { rewrite <- (combine_nth neighs nnl jj 0 0 LN). apply nth_In. rewrite combine_length. lia. }
      rewrite pair_generate_ok by (intros i Ii; apply (H _ _ _ _ Ca Nn Ii)). cbn [bind].
      assert (Nc : nth ii ncl 0 = length (cen (nth ii centres 0))).
      { unfold ncl. rewrite (nth_indep _ 0 (length (cen 0))) by (rewrite map_length; lia). exact (map_nth (fun ca => length (cen ca)) centres 0 ii). }
      apply block; [| | |exact G3].
      * assert (X := sum_firstn_S ncl ii ltac:(lia)). assert (Y := sum_firstn_le ncl (Datatypes.S ii) (length ncl) ltac:(lia)). rewrite firstn_all in Y. unfold reserved. lia.
      * assert (X := sum_firstn_S nnl jj ltac:(lia)). assert (Y := sum_firstn_le nnl (Datatypes.S jj) (length nnl) ltac:(lia)). rewrite firstn_all in Y. unfold reserved. lia.
      * intros kk ll K Ll. rewrite (Fval ii jj kk ll ltac:(lia) ltac:(lia) K Ll).
        exists (pad (nth kk (cen (nth ii centres 0)) 0) (nth jj neighs 0) (nth jj nnl 0)). split.
        -- rewrite nth_error_map. rewrite (nth_error_nth' _ 0) by lia. reflexivity.
        -- apply nth_error_nth'. rewrite (LP (nth ii centres 0) _ _ _ Ca Nn); [exact Ll|]. apply nth_In. lia.
    + exact G.
    + exists a2. split; [exact E2|]. split; [exact S2|]. intros r c X Hr Hc. apply G2; [|exact Hr|exact Hc]. destruct X as [X|X]; [left; exact X|].
      right. destruct (sum_block_ex nnl c Hc) as (jj & ll & A & B & D). exists jj. split; [apply in_seq; lia|]. split; [exact X|lia].
  - split; [split; [apply repeat_length|]|intros r c []]. intros r l N. apply nth_error_In, repeat_spec in N. subst. apply repeat_length.
  - rewrite E. f_equal. apply nth_error_ext; [rewrite map_length; congruence|]. intros r Hr. rewrite L in Hr.
    rewrite nth_error_map. destruct (nth_error a' r) as [l|] eqn:X; [|apply nth_error_None in X; lia].
    destruct (nth_error full r) as [m|] eqn:Y; [|apply nth_error_None in Y; lia]. cbn [option_map]. f_equal.
    apply nth_error_ext; [rewrite map_length, (S r l X), (Lf r m Y); reflexivity|]. intros c Hc. rewrite (S r l X) in Hc.
    rewrite nth_error_map. assert (Z : get2 a' r c = Some (Some (F r c))).
    { apply G; [|exact Hr|exact Hc]. right. destruct (sum_block_ex ncl r Hr) as (ii & kk & A & B & D). exists ii. split; [apply in_seq; lia|lia]. }
    unfold get2 in Z. rewrite X in Z. rewrite Z. unfold F. rewrite (nth_error_nth full r [] Y).
    rewrite (nth_error_nth' m zero) by (rewrite (Lf r m Y); exact Hc). reflexivity.
Qed.


(** A loop in which a bad step stops with the assertion. *)
Lemma foldM_stop {S I} (Inv : S -> Prop) (bad : I -> Prop) (step : S -> I -> result S) l :
  (forall i s, In i l -> Inv s -> step s i = Err AssertionError \/ (~ bad i /\ exists s', step s i = Ok s' /\ Inv s')) ->
  forall s, Inv s -> (foldM step l s = Err AssertionError) \/ ((forall i, In i l -> ~ bad i) /\ exists s', foldM step l s = Ok s' /\ Inv s').
Proof.
  induction l as [|i l IH]; intros H s Hs; [right; split; [intros ? []|exists s; split; [reflexivity|exact Hs]]|].
  cbn [foldM]. destruct (H i s (or_introl eq_refl) Hs) as [E|(N & s' & E & Hs')]; rewrite E; cbn [bind]; [left; reflexivity|].
  destruct (IH ltac:(intros; apply H; [right|]; assumption) s' Hs') as [E2|(N2 & s2 & E2 & H2)]; rewrite E2; [left; reflexivity|].
  right. split; [intros j [->|J]; [exact N|apply N2, J]|exists s2; split; [reflexivity|exact H2]].
Qed.

(** One neighbour too many for the reservation. *)
Lemma tilde_generate_bad centres neighs nnl ii jj i : length neighs = length nnl -> ii < length centres -> jj < length neighs ->
  In i (cen (nth ii centres 0)) -> nth jj nnl 0 < length (nbt i (nth jj neighs 0)) ->
  tilde_generate row zero inum ilist numneigh firstneigh x types centres neighs nnl = Err AssertionError.
Proof using Hok.
  intros LN Hi Hj I0 B0. unfold tilde_generate.
  set (ncl := map (fun ca => length (cen ca)) centres).
  assert (E1 : mapM (num_centres inum ilist types) centres = Ok ncl).
  { unfold ncl. clear - Hok. induction centres as [|ca l IH]; [reflexivity|]. cbn [mapM map]. rewrite num_centres_ok. cbn [bind]. rewrite IH. reflexivity. }
  rewrite E1. cbn [bind]. rewrite !width_sum.
  assert (Lncl : length ncl = length centres) by apply map_length.
  set (bad := fun ii jj => exists i, In i (cen (nth ii centres 0)) /\ nth jj nnl 0 < length (nbt i (nth jj neighs 0))).
  set (Inv := fun a : list (list (option V)) => shaped (reserved ncl) (reserved nnl) a).
  destruct (foldM_stop Inv (fun ii => exists jj, jj < length neighs /\ bad ii jj) (fun a ii => foldM (fun a jj =>
    bind (get centres ii) (fun ca => bind (get neighs jj) (fun na => bind (get nnl jj) (fun nn => bind (get ncl ii) (fun nc =>
    bind (get (starts ncl) ii) (fun cs => bind (get (starts nnl) jj) (fun ns =>
    bind (pair_generate row zero inum ilist numneigh firstneigh x types ca na nn) (fun p => copy_block nc nn cs ns p a)))))))) (seq 0 (length neighs)) a)
    (seq 0 (length centres))) with (s := repeat (repeat (@None V) (reserved nnl)) (reserved ncl)) as [E|(N & _)].
  - intros i1 a I1 Ha. apply in_seq in I1.
    destruct (foldM_stop Inv (bad i1) (fun a jj =>
      bind (get centres i1) (fun ca => bind (get neighs jj) (fun na => bind (get nnl jj) (fun nn => bind (get ncl i1) (fun nc =>
      bind (get (starts ncl) i1) (fun cs => bind (get (starts nnl) jj) (fun ns =>
      bind (pair_generate row zero inum ilist numneigh firstneigh x types ca na nn) (fun p => copy_block nc nn cs ns p a))))))))
      (seq 0 (length neighs))) with (s := a) as [E|(N & s' & E & Hs')].
    + intros j1 a1 J1 Ha1. apply in_seq in J1.
      rewrite (get_ok centres i1 0) by lia. cbn [bind]. rewrite (get_ok neighs j1 0) by lia. cbn [bind]. rewrite (get_ok nnl j1 0) by lia. cbn [bind].
      rewrite (get_ok ncl i1 0) by lia. cbn [bind]. rewrite starts_get by lia. cbn [bind]. rewrite starts_get by lia. cbn [bind].
      assert (Nc : nth i1 ncl 0 = length (cen (nth i1 centres 0))).
      { unfold ncl. rewrite (nth_indep _ 0 (length (cen 0))) by (rewrite map_length; lia). exact (map_nth (fun ca => length (cen ca)) centres 0 i1). }
      set (na := nth j1 neighs 0) in *. set (nn := nth j1 nnl 0) in *. set (ca := nth i1 centres 0) in *.
      destruct (Forall_Exists_dec (fun k => length (nbt k na) <= nn) (fun k => le_dec (length (nbt k na)) nn) (cen ca)) as [Fa|Ex].
      * rewrite Forall_forall in Fa. rewrite pair_generate_ok by exact Fa. cbn [bind]. right. split.
        { intros (k & K1 & K2). specialize (Fa k K1). fold na nn in K2. lia. }
        set (p := map (fun k => pad k na nn) (cen ca)).
        destruct (block (reserved ncl) (reserved nnl) (fun r c => nth (c - list_sum (firstn j1 nnl)) (nth (r - list_sum (firstn i1 ncl)) p []) zero)
           (nth i1 ncl 0) nn (list_sum (firstn i1 ncl)) (list_sum (firstn j1 nnl)) p) with (a := a1) (P := fun _ _ : nat => False) as (a' & E & Sh & _).
        -- assert (X := sum_firstn_S ncl i1 ltac:(lia)). assert (Y := sum_firstn_le ncl (Datatypes.S i1) (length ncl) ltac:(lia)). rewrite firstn_all in Y. unfold reserved. lia.
        -- assert (X := sum_firstn_S nnl j1 ltac:(lia)). assert (Y := sum_firstn_le nnl (Datatypes.S j1) (length nnl) ltac:(lia)). rewrite firstn_all in Y. unfold reserved. lia.
        -- intros kk ll K L.
           replace (list_sum (firstn i1 ncl) + kk - list_sum (firstn i1 ncl)) with kk by lia.
           replace (list_sum (firstn j1 nnl) + ll - list_sum (firstn j1 nnl)) with ll by lia.
           exists (nth kk p []). assert (Lp : length p = length (cen ca)) by apply map_length. split; [apply nth_error_nth'; lia|]. apply nth_error_nth'.
           unfold p. rewrite (nth_indep _ [] (pad 0 na nn)) by (rewrite map_length; lia). rewrite (map_nth (fun k => pad k na nn)).
           unfold padded. rewrite app_length, map_length, repeat_length. assert (Kc : kk < length (cen ca)) by lia. assert (Q := Fa _ (nth_In (cen ca) 0 Kc)). lia.
        -- split; [exact Ha1|intros r c []].
        -- exists a'. split; [exact E|exact Sh].
      * left. apply Exists_exists in Ex. destruct Ex as (k & K1 & K2). rewrite (pair_generate_bad ca na nn k K1 ltac:(lia)). reflexivity.
    + exact Ha.
    + left. exact E.
    + right. split; [intros (jj1 & J & Bd); apply (N jj1); [apply in_seq; lia|exact Bd]|]. exists s'. split; [exact E|exact Hs'].
  - split; [apply repeat_length|]. intros r l N. apply nth_error_In, repeat_spec in N. subst. apply repeat_length.
  - exact E.
  - exfalso. apply (N ii); [apply in_seq; lia|]. exists jj. split; [exact Hj|]. exists i. split; assumption.
Qed.

(** The automatic reservation. *)
Lemma calc_num_neigh_ok na : exists m, calc_num_neigh inum numneigh firstneigh types na = Ok m /\
  (forall i, i < inum -> length (nbt i na) <= m) /\ (m = 0 \/ exists i, i < inum /\ length (nbt i na) = m).
Proof using Hok.
  unfold calc_num_neigh. exists (maxn (map (fun i => length (nbt i na)) (seq 0 inum))). split; [|split].
  - rewrite (foldM_ext _ (fun m i => Ok (if m <? length (nbt i na) then length (nbt i na) else m))).
    2:{ intros i I m. apply in_seq in I. rewrite num_typed_ok by lia. reflexivity. }
    apply (max_loop (fun i => length (nbt i na))).
  - intros i I. apply fold_max_ge. apply in_map_iff. exists i. split; [reflexivity|apply in_seq; lia].
  - unfold maxn. destruct (fold_max_in (map (fun i => length (nbt i na)) (seq 0 inum)) 0) as [E|E]; [left; exact E|right].
    apply in_map_iff in E. destruct E as (i & E & I). exists i. split; [apply in_seq in I; lia|exact E].
Qed.

Lemma whole_at centres neighs nnl ii jj kk ll : length neighs = length nnl ->
  (forall ca na nn i, In ca centres -> In (na, nn) (combine neighs nnl) -> In i (cen ca) -> length (nbt i na) <= nn) ->
  ii < length centres -> jj < length neighs -> kk < length (cen (nth ii centres 0)) -> ll < nth jj nnl 0 ->
  nth (list_sum (firstn jj nnl) + ll) (nth (list_sum (firstn ii (map (fun ca => length (cen ca)) centres)) + kk)
    (whole row zero inum ilist numneigh firstneigh x types centres neighs nnl) []) zero =
  nth ll (pad (nth kk (cen (nth ii centres 0)) 0) (nth jj neighs 0) (nth jj nnl 0)) zero.
Proof using.
  intros LN H A B D E. rewrite map_flat_row.
  set (rowof := fun i => concat (map (fun nb => pad i (fst nb) (snd nb)) (combine neighs nnl))).
  assert (LP : forall ca na nn i, In ca centres -> In (na, nn) (combine neighs nnl) -> In i (cen ca) -> length (pad i na nn) = nn).
  { intros ca na nn i A1 B1 D1. unfold padded. rewrite app_length, map_length, repeat_length. specialize (H ca na nn i A1 B1 D1). lia. }
  assert (Lrow : forall ca i, In ca centres -> In i (cen ca) -> map (@length V) (map (fun nb => pad i (fst nb) (snd nb)) (combine neighs nnl)) = nnl).
  { intros ca i A1 B1. rewrite map_map. rewrite (map_ext_in _ snd).
    - clear - LN. revert nnl LN. induction neighs as [|n l IH]; intros [|m k] L; try discriminate; [reflexivity|]. cbn. f_equal. apply IH. cbn in L. lia.
    - intros [na nn] N. apply (LP ca na nn i A1 N B1). }
  assert (Lens : map (@length (list V)) (map (fun ca => map rowof (cen ca)) centres) = map (fun ca => length (cen ca)) centres).
  { rewrite map_map. apply map_ext. intros ca. apply map_length. }
  change (fun i => concat (map (fun nb => pad i (fst nb) (snd nb)) (combine neighs nnl))) with rowof.
  rewrite <- Lens at 1.
  assert (Nb : nth ii (map (fun ca => map rowof (cen ca)) centres) [] = map rowof (cen (nth ii centres 0))).
  { rewrite (nth_indep _ [] (map rowof (cen 0))) by (rewrite map_length; exact A). exact (map_nth (fun ca => map rowof (cen ca)) centres 0 ii). }
  rewrite nth_concat; [|rewrite map_length; exact A|rewrite Nb, map_length; lia].
  rewrite Nb. rewrite (nth_indep _ [] (rowof 0)) by (rewrite map_length; lia). rewrite map_nth. unfold rowof.
  set (i := nth kk (cen (nth ii centres 0)) 0).
  assert (I : In i (cen (nth ii centres 0))) by (apply nth_In; lia).
  assert (Ca : In (nth ii centres 0) centres) by (apply nth_In; exact A).
  assert (Np : nth jj (map (fun nb => pad i (fst nb) (snd nb)) (combine neighs nnl)) [] = pad i (nth jj neighs 0) (nth jj nnl 0)).
  { rewrite (nth_indep _ [] (pad i (fst (0, 0)) (snd (0, 0)))) by (rewrite map_length, combine_length; lia).
    rewrite (map_nth (fun nb => pad i (fst nb) (snd nb)) (combine neighs nnl) (0, 0) jj). rewrite combine_nth by exact LN. reflexivity. }
  rewrite <- (Lrow _ i Ca I) at 1. rewrite nth_concat; [rewrite Np; reflexivity|rewrite map_length, combine_length; lia|].
  rewrite Np. rewrite (LP (nth ii centres 0) (nth jj neighs 0) (nth jj nnl 0) i Ca); [exact E| |exact I].
  rewrite <- (combine_nth neighs nnl jj 0 0 LN). apply nth_In. rewrite combine_length. lia.
Qed.

Lemma tilde_auto centres neighs nnl : mapM (calc_num_neigh inum numneigh firstneigh types) neighs = Ok nnl ->
  tilde_generate row zero inum ilist numneigh firstneigh x types centres neighs nnl =
  Ok (map (map Some) (whole row zero inum ilist numneigh firstneigh x types centres neighs nnl)).
Proof using Hok.
  intros M. apply tilde_generate_ok.
  - clear - M. revert nnl M. induction neighs as [|n l IH]; intros nnl M; cbn [mapM] in M; [injection M as <-; reflexivity|].
    destruct (calc_num_neigh _ _ _ _ n); [|discriminate]. cbn [bind] in M. destruct (mapM _ l) as [k|] eqn:E; [|discriminate].
    cbn [bind] in M. injection M as <-. cbn. f_equal. apply IH. reflexivity.
  - intros ca na nn i _ N I. assert (C : calc_num_neigh inum numneigh firstneigh types na = Ok nn).
    { clear - M N. revert nnl M N. induction neighs as [|n l IH]; intros nnl M N; cbn [mapM] in M; [injection M as <-; destruct N|].
      destruct (calc_num_neigh inum numneigh firstneigh types n) as [k0|] eqn:E0; [|discriminate]. cbn [bind] in M. destruct (mapM _ l) as [k|] eqn:E; [|discriminate].
      cbn [bind] in M. injection M as <-. destruct N as [[= <- <-]|N]; [exact E0|]. apply (IH k eq_refl N). }
    destruct (calc_num_neigh_ok na) as (m & E & G & _). rewrite C in E. injection E as <-. apply G. unfold centres_of_type in I. apply filter_In in I. destruct I as [I _]. apply in_seq in I. lia.
Qed.
End Tilde.

(** A small system: atoms 0 and 1 are centres (types 3 and 14), atoms 2 and 3 are images. *)
Definition ex_types := [3; 14; 3; 14].
Definition ex_x : list vec := [(0, 0, 0); (1, 0, 0); (0, 1, 0); (1, 1, 0)]%R.
Lemma ex_lists_ok : lists_ok 2 [0; 1] [3; 2] [[1; 2; 3]; [0; 3; 7]] ex_x ex_types.
Proof.
  unfold lists_ok. split; [cbn; lia|]. split; [cbn; lia|]. split; [cbn; lia|]. split.
  - intros i I. destruct i as [|[|i]]; cbn; lia.
  - intros i b I H. destruct i as [|[|i]]; [| |lia]; cbn in H; cbn; lia.
Qed.
Lemma ex_enough ca na nn i : In ca [3; 14] -> In (na, nn) (combine [3; 14] [2; 2]) -> In i (centres_of_type 2 [0; 1] ex_types ca) ->
  length (neighbours_of_type [3; 2] [[1; 2; 3]; [0; 3; 7]] ex_types i na) <= nn.
Proof.
  intros C N I. apply filter_In in I. destruct I as [I _]. apply in_seq in I. cbn in N.
  destruct N as [[= <- <-]|[[= <- <-]|[]]]; destruct i as [|[|i]]; cbn; lia.
Qed.
Lemma ex_auto : mapM (calc_num_neigh 2 [3; 2] [[1; 2; 3]; [0; 3; 7]] ex_types) [3; 14] = Ok [1; 2].
Proof. reflexivity. Qed.
Lemma ex_whole (row : vec -> nat) : whole row 9 2 [0; 1] [3; 2] [[1; 2; 3]; [0; 3; 7]] ex_x ex_types [3; 14] [3; 14] [2; 2] =
  [[row (vsub (0, 1, 0) (0, 0, 0))%R; 9; row (vsub (1, 0, 0) (0, 0, 0))%R; row (vsub (1, 1, 0) (0, 0, 0))%R];
   [row (vsub (0, 0, 0) (1, 0, 0))%R; 9; row (vsub (1, 1, 0) (1, 0, 0))%R; 9]].
Proof. reflexivity. Qed.
Lemma ex_small : tilde_generate (fun _ => 1) 0 2 [0; 1] [3; 2] [[1; 2; 3]; [0; 3; 7]] ex_x ex_types [3; 14] [3; 14] [1; 1] = Err AssertionError.
Proof. reflexivity. Qed.
