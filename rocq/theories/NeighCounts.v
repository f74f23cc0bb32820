(** Lemmas about neighbour counts and registries. *)
From Verif Require Import Arr Vec StructModel SiteIndexModel SeModel NeighModel NeighSpec StructProofs NeighProofs.
From Coq Require Import ZifyBool.
Open Scope nat_scope.

Lemma filter_enum {A} (q : A -> bool) (l : list A) : length (filter (fun e => q (snd e)) (enumerate l)) = length (filter q l).
Proof.
  unfold enumerate. generalize 0 as k. induction l as [|a l IH]; intros k; [reflexivity|]. cbn [length seq combine filter snd]. destruct (q a); cbn [length]; rewrite IH; reflexivity.
Qed.
Lemma number_ext {A} (g1 g2 : nat -> A -> Prop) atoms n : (forall j a, nth_error atoms j = Some a -> (g1 j a <-> g2 j a)) -> number g1 atoms n -> number g2 atoms n.
Proof.
  intros H (sel & [N L] & E). exists sel. split; [split; [exact N|]|exact E]. intros j. rewrite L. split; intros (a & Ha & G); exists a; (split; [exact Ha|]); apply (H j a Ha); exact G.
Qed.
Lemma number_le {A} (g1 g2 : nat -> A -> Prop) atoms n m : (forall j a, nth_error atoms j = Some a -> g1 j a -> g2 j a) -> number g1 atoms n -> number g2 atoms m -> n <= m.
Proof.
  intros H (s1 & [N1 L1] & <-) (s2 & [N2 L2] & <-). apply NoDup_incl_length; [exact N1|]. intros j Hj. apply L1 in Hj. destruct Hj as (a & Ha & G). apply L2. exists a. split; [exact Ha|apply (H j a Ha G)].
Qed.
Lemma number_same {A} (g1 g2 : nat -> A -> Prop) atoms n : (forall j a, nth_error atoms j = Some a -> g1 j a -> g2 j a) -> number g1 atoms n -> number g2 atoms n ->
  forall j a, nth_error atoms j = Some a -> g2 j a -> g1 j a.
Proof.
  intros H (s1 & [N1 L1] & E1) (s2 & [N2 L2] & E2) j a Ha G. assert (I2 : In j s2) by (apply L2; exists a; split; assumption).
  assert (incl s2 s1). { apply NoDup_length_incl; [exact N1|lia|]. intros i Hi. apply L1 in Hi. destruct Hi as (b & Hb & Gb). apply L2. exists b. split; [exact Hb|apply (H i b Hb Gb)]. }
  apply H0, L1 in I2. destruct I2 as (b & Hb & Gb). congruence.
Qed.

Section Counts.
Context {P D : Type}.
Variables (dist : P -> P -> D) (leb : D -> D -> bool) (argsort : list D -> list nat) (zeroP : P) (zeroD : D).
Implicit Types sup : list (Z * P).

Lemma largest_of (good : nat -> nat -> Z * P -> Prop) sup key counts : Forall2 (fun c k => number (good c) sup k) key counts ->
  largest_number good sup key (list_max0 counts).
Proof.
  intros F. destruct (list_max0_spec counts) as [M1 M2]. split.
  - intros c Hc. clear M2. revert M1. generalize (list_max0 counts) as m. induction F as [|x k key counts H F IH]; intros m M1; [destruct Hc|]. destruct Hc as [<-|Hc].
    + exists k. split; [exact H|apply M1; left; reflexivity].
    + apply IH; [exact Hc|]. intros y Hy. apply M1. right. exact Hy.
  - destruct M2 as [M2|M2]; [left; exact M2|right]. revert M2. generalize (list_max0 counts) as m. clear M1. induction F as [|x k key counts H F IH]; intros m M2; [destruct M2|]. destruct M2 as [<-|M2].
    + exists x. split; [left; reflexivity|exact H].
    + destruct (IH m M2) as (c & Ic & Hn). exists c. split; [right; exact Ic|exact Hn].
Qed.

Lemma count_within_ok sup rcut c : c < length sup -> exists k, count_within dist leb sup rcut c = Ok k /\ number (strict_near dist leb sup rcut c) sup k.
Proof.
  intros Hc. assert (Ec := nth_error_nth' sup (0%Z, zeroP) Hc). set (cen := nth c sup (0%Z, zeroP)) in *. unfold count_within.
  rewrite (get_some _ _ (snd cen)) by (rewrite nth_error_map, Ec; reflexivity). cbn [bind]. eexists. split; [reflexivity|].
  unfold distances. rewrite map_map, filter_map_length, <- (filter_enum (fun a => ltb leb (dist (snd a) (snd cen)) rcut)).
  apply number_filter. intros j a Ha. cbn [snd]. unfold ltb, strict_near, strictly_within. rewrite negb_true_iff. split.
  - intros H. exists cen. split; assumption.
  - intros (cen' & E & H). congruence.
Qed.

Lemma max_count_ok sup key rcut : Forall (fun c => c < length sup) key ->
  exists m, max_num_nbrs_real dist leb sup key rcut = Ok (Z.of_nat m - 1)%Z /\ largest_number (strict_near dist leb sup rcut) sup key m.
Proof.
  intros H. unfold max_num_nbrs_real. destruct (mapM_forall2_exists (count_within dist leb sup rcut) (fun c k => number (strict_near dist leb sup rcut c) sup k) key) as (ks & E & F).
  { intros c Hc. rewrite Forall_forall in H. apply count_within_ok, H, Hc. }
  rewrite E. exists (list_max0 ks). split; [reflexivity|]. apply largest_of, F.
Qed.

Hypothesis Hleb : total_preorder leb.
Hypothesis Hsort : sorts leb argsort.
Lemma neighbours_number sup rcut c sel : neighbours dist leb sup rcut c sel -> number (near dist leb sup rcut c) sup (length sel).
Proof.
  intros (cen & Ec & [N L] & _). exists sel. split; [split; [exact N|]|reflexivity]. intros j. rewrite L. split; intros (a & Ha & G); exists a; (split; [exact Ha|]).
  - exists cen. split; assumption.
  - destruct G as (cen' & E & G). assert (cen' = cen) by congruence. subst cen'. exact G.
Qed.
Lemma strict_is_near sup rcut c j a : strict_near dist leb sup rcut c j a -> near dist leb sup rcut c j a.
Proof. intros (cen & E & G). exists cen. split; [exact E|]. unfold strictly_within in G. unfold within. destruct (proj1 Hleb (dist (snd a) (snd cen)) rcut) as [X|X]; congruence. Qed.

Lemma width_and_count sup key rcut : Forall (fun c => c < length sup) key ->
  exists table m w, key_neighs_info dist leb argsort zeroP zeroD sup key rcut = Ok table /\
    max_num_nbrs_real dist leb sup key rcut = Ok (Z.of_nat m - 1)%Z /\
    Forall (fun row => length (fst (fst row)) = w /\ length (snd (fst row)) = w /\ length (snd row) = w) table /\
    largest_number (near dist leb sup rcut) sup key w /\ largest_number (strict_near dist leb sup rcut) sup key m /\ m <= w /\
    (key <> [] -> (m = w <-> exists c cen, In c key /\ nth_error sup c = Some cen /\ number (near dist leb sup rcut c) sup w /\
      forall j a, nth_error sup j = Some a -> ~ on_cutoff dist leb (snd cen) rcut a)).
Proof.
  intros H. destruct (table_ok dist leb argsort zeroP zeroD Hleb Hsort sup key rcut H) as (table & sels & w & Et & F & Wd & Lt & Ls & Sh).
  destruct (max_count_ok sup key rcut H) as (m & Em & Lm). exists table, m, w. split; [exact Et|]. split; [exact Em|].
  assert (Lw : largest_number (near dist leb sup rcut) sup key w).
  { assert (F2 : Forall2 (fun c k => number (near dist leb sup rcut c) sup k) key (map (@length nat) sels)) by (clear - F; induction F as [|c s k ss Hn F IH]; cbn; constructor; [apply neighbours_number; exact Hn|exact IH]).
    replace w with (list_max0 (map (@length nat) sels)); [apply largest_of, F2|]. destruct Wd as [W1 W2]. apply list_max0_unique.
    - intros k Hk. apply in_map_iff in Hk. destruct Hk as (s & <- & Is). exact (W1 s Is).
    - destruct W2 as [W2|(s & Is & <-)]; [left; exact W2|right; apply in_map; exact Is]. }
  split.
  { apply Forall_forall. intros row Hr. apply In_nth_error in Hr. destruct Hr as (i & Hi). assert (i < length table) by (apply nth_error_Some; congruence).
    destruct (nth_error key i) as [c|] eqn:K; [|apply nth_error_None in K; lia]. destruct (nth_error sels i) as [sel|] eqn:S1; [|apply nth_error_None in S1; lia].
    assert (len : forall A (f : Z * P -> A) z s r, shows f z w sup s r -> length r = w).
    { intros A f z s r (v & Fv & Le & ->). rewrite app_length, repeat_length. assert (X := forall2_len _ _ _ Fv). lia. }
    destruct (Sh i c sel row K S1 Hi) as (cen & _ & A1 & A2 & A3). split; [|split]; eapply len; eassumption. }
  split; [exact Lw|]. split; [exact Lm|].
  assert (Hmw : m <= w).
  { destruct (proj2 Lm) as [->|(c & Ic & Nm)]; [lia|]. destruct (proj1 Lw c Ic) as (n & Nn & Hn). assert (m <= n) by (eapply number_le; [|exact Nm|exact Nn]; intros j a _; apply strict_is_near). lia. }
  split; [exact Hmw|]. intros Hne. split.
  - intros ->. assert (W : exists c, In c key /\ number (strict_near dist leb sup rcut c) sup w).
    { destruct (proj2 Lm) as [E|W]; [|exact W]. destruct key as [|c0 key]; [contradiction|]. exists c0. split; [left; reflexivity|].
      destruct (proj1 Lm c0 (or_introl eq_refl)) as (n & Nn & Hn). replace w with n by lia. exact Nn. }
    destruct W as (c & Ic & Nm). destruct (proj1 Lw c Ic) as (n & Nn & Hn). assert (w <= n) by (eapply number_le; [|exact Nm|exact Nn]; intros j a _; apply strict_is_near).
    assert (n = w) by lia. subst n. assert (Hc : c < length sup) by (rewrite Forall_forall in H; apply H; exact Ic). assert (Ec := nth_error_nth' sup (0%Z, zeroP) Hc).
    exists c, (nth c sup (0%Z, zeroP)). split; [exact Ic|]. split; [exact Ec|]. split; [exact Nn|]. intros j a Ha [O1 O2].
    assert (X := number_same _ _ sup w (fun j a _ => strict_is_near sup rcut c j a) Nm Nn j a Ha (ex_intro _ _ (conj Ec O1))). destruct X as (cen' & E' & G). unfold strictly_within in G. assert (cen' = nth c sup (0%Z, zeroP)) by congruence. subst cen'. congruence.
  - intros (c & cen & Ic & Ec & Nw & No). destruct (proj1 Lm c Ic) as (n & Nn & Hn).
    assert (Nw' : number (strict_near dist leb sup rcut c) sup w).
    { eapply number_ext; [|exact Nw]. intros j a Ha. split.
      - intros (cen' & E' & G). exists cen'. split; [exact E'|]. unfold strictly_within. assert (cen' = cen) by congruence. subst cen'.
        destruct (leb rcut (dist (snd a) (snd cen))) eqn:X; [|reflexivity]. exfalso. apply (No j a Ha). split; assumption.
      - apply strict_is_near. }
    assert (w = n) by (eapply number_unique; eassumption). lia.
Qed.

(** *** Per element *)
Lemma lookup_update d k v x : lookup (update d k v) x = if String.eqb x k then Ok v else lookup d x.
Proof.
  induction d as [|[k' v'] d IH]; cbn [update lookup]; [destruct (String.eqb x k); reflexivity|].
  destruct (String.eqb k k') eqn:E.
  - apply String.eqb_eq in E. subst k'. cbn [lookup]. destruct (String.eqb x k); reflexivity.
  - cbn [lookup]. rewrite IH. destruct (String.eqb x k') eqn:E1; [|reflexivity]. apply String.eqb_eq in E1. subst k'. rewrite String.eqb_sym, E. reflexivity.
Qed.
Lemma lookup_fromkeys keys x : lookup (fromkeys keys) x = if existsb (String.eqb x) keys then Ok 0 else Err KeyError.
Proof.
  unfold fromkeys. assert (W : forall d, lookup (fold_left (fun d k => update d k 0) keys d) x = if existsb (String.eqb x) keys then Ok 0 else lookup d x).
  { induction keys as [|k keys IH]; intros d; [reflexivity|]. cbn [fold_left existsb]. rewrite IH, lookup_update. destruct (String.eqb x k), (existsb (String.eqb x) keys); reflexivity. }
  rewrite W. reflexivity.
Qed.
Lemma lookup_keys d x : (exists v, lookup d x = Ok v) \/ lookup d x = Err KeyError.
Proof. induction d as [|[k v] d IH]; [right; reflexivity|]. cbn. destruct (String.eqb x k); [left; eexists; reflexivity|exact IH]. Qed.

Variable an : string -> result Z.
Lemma count_element_ok sup rcut z c : c < length sup -> exists k, count_element dist leb sup rcut z c = Ok k /\ number (of_element z (strict_near dist leb sup rcut) c) sup k.
Proof.
  intros Hc. assert (Ec := nth_error_nth' sup (0%Z, zeroP) Hc). set (cen := nth c sup (0%Z, zeroP)) in *. unfold count_element.
  rewrite (get_some _ _ (snd cen)) by (rewrite nth_error_map, Ec; reflexivity). cbn [bind]. eexists. split; [reflexivity|].
  apply number_filter. intros j a Ha. cbn [snd fst]. unfold ltb, of_element, strict_near, strictly_within. rewrite !andb_true_iff, !negb_true_iff, Z.eqb_eq, Nat.eqb_neq. split.
  - intros [[H1 H2] H3]. split; [exists cen; split; assumption|split; assumption].
  - intros ((cen' & E & H1) & H2 & H3). assert (cen' = cen) by congruence. subst. repeat split; assumption.
Qed.

Lemma element_inner sup rcut c (cnt : string -> nat) es : forall d,
  (forall e, In e es -> exists z, an e = Ok z /\ count_element dist leb sup rcut z c = Ok (cnt e)) ->
  (forall e, In e es -> exists v, lookup d e = Ok v) ->
  exists d', foldM (fun d e => bind (an e) (fun z => bind (count_element dist leb sup rcut z c) (fun k => bind (lookup d e) (fun old => Ok (if old <? k then update d e k else d))))) es d = Ok d' /\
  forall x v, lookup d x = Ok v -> lookup d' x = Ok (if existsb (String.eqb x) es then Nat.max v (cnt x) else v).
Proof.
  induction es as [|e es IH]; intros d H1 H2; [exists d; split; [reflexivity|intros; assumption]|]. cbn [foldM].
  destruct (H1 e (or_introl eq_refl)) as (z & Ez & Ek). destruct (H2 e (or_introl eq_refl)) as (v0 & Ev). rewrite Ez. cbn [bind]. rewrite Ek. cbn [bind]. rewrite Ev. cbn [bind].
  set (d1 := if v0 <? cnt e then update d e (cnt e) else d).
  assert (L1 : forall x v, lookup d x = Ok v -> lookup d1 x = Ok (if String.eqb x e then Nat.max v (cnt x) else v)).
  { intros x v Hx. unfold d1. destruct (String.eqb x e) eqn:E.
    - apply String.eqb_eq in E. subst x. assert (v = v0) by congruence. subst v. destruct (v0 <? cnt e) eqn:C; [rewrite lookup_update, String.eqb_refl; f_equal; lia|rewrite Hx; f_equal; lia].
    - destruct (v0 <? cnt e); [rewrite lookup_update, E|]; exact Hx. }
  destruct (IH d1) as (d' & E' & L').
  { intros x Hx. apply H1. right. exact Hx. }
  { intros x Hx. destruct (H2 x (or_intror Hx)) as (v & Hv). eexists. apply L1, Hv. }
  exists d'. split; [exact E'|]. intros x v Hv. rewrite (L' x _ (L1 x v Hv)). f_equal. cbn [existsb]. destruct (String.eqb x e), (existsb (String.eqb x) es); cbn [orb]; lia.
Qed.

Lemma max_element_ok sup key rcut elements : Forall (fun c => c < length sup) key -> (forall e, In e elements -> exists z, an e = Ok z) ->
  exists d, max_num_nbrs_real_element dist leb an sup key rcut elements = Ok d /\
  forall e z, In e elements -> an e = Ok z -> exists m, lookup d e = Ok m /\ largest_number (of_element z (strict_near dist leb sup rcut)) sup key m.
Proof.
  intros Hk He. unfold max_num_nbrs_real_element.
  set (cnt := fun c e => match an e with Ok z => match count_element dist leb sup rcut z c with Ok k => k | Err _ => 0 end | Err _ => 0 end).
  assert (W : forall key, Forall (fun c => c < length sup) key -> forall d, (forall e, In e elements -> exists v, lookup d e = Ok v) ->
    exists d', foldM (fun d c => foldM (fun d e => bind (an e) (fun z => bind (count_element dist leb sup rcut z c) (fun k => bind (lookup d e) (fun old => Ok (if old <? k then update d e k else d))))) elements d) key d = Ok d' /\
    forall x v, In x elements -> lookup d x = Ok v -> lookup d' x = Ok (fold_left (fun m k => if m <? k then k else m) (map (fun c => cnt c x) key) v)).
  { clear Hk key. induction key as [|c key IH]; intros Hk d Hd; [exists d; split; [reflexivity|intros; assumption]|]. inversion Hk as [|? ? Hc Hr]; subst. cbn [foldM].
    destruct (element_inner sup rcut c (cnt c) elements d) as (d1 & E1 & L1).
    { intros e Ie. destruct (He e Ie) as (z & Ez). exists z. split; [exact Ez|]. destruct (count_element_ok sup rcut z c Hc) as (k & Ek & _). unfold cnt. rewrite Ez, Ek. reflexivity. }
    { exact Hd. }
    rewrite E1. cbn [bind]. destruct (IH Hr d1) as (d' & E' & L').
    { intros e Ie. destruct (Hd e Ie) as (v & Hv). eexists. apply (L1 e v Hv). }
    exists d'. split; [exact E'|]. intros x v Ix Hv. rewrite (L' x _ Ix (L1 x v Hv)). cbn [map fold_left]. f_equal. f_equal.
    assert (X : existsb (String.eqb x) elements = true) by (apply existsb_exists; exists x; split; [exact Ix|apply String.eqb_refl]). rewrite X. destruct (v <? cnt c x) eqn:C; lia. }
  destruct (W key Hk (fromkeys elements)) as (d & E & L).
  { intros e Ie. exists 0. rewrite lookup_fromkeys. assert (X : existsb (String.eqb e) elements = true) by (apply existsb_exists; exists e; split; [exact Ie|apply String.eqb_refl]). rewrite X. reflexivity. }
  exists d. split; [exact E|]. intros e z Ie Ez. exists (list_max0 (map (fun c => cnt c e) key)). split.
  - apply (L e 0 Ie). rewrite lookup_fromkeys. assert (X : existsb (String.eqb e) elements = true) by (apply existsb_exists; exists e; split; [exact Ie|apply String.eqb_refl]). rewrite X. reflexivity.
  - apply largest_of. clear - zeroP Hk Ez. induction Hk as [|c key Hc Hk IH]; cbn [map]; constructor; [|exact IH]. destruct (count_element_ok sup rcut z c Hc) as (k & Ek & Nk). unfold cnt. rewrite Ez, Ek. exact Nk.
Qed.
Lemma max_element_unknown sup c key rcut elements e ex : c < length sup -> In e elements -> an e = Err ex -> (forall x y, an x = Err y -> y = ex) ->
  max_num_nbrs_real_element dist leb an sup (c :: key) rcut elements = Err ex.
Proof.
  intros Hc Ie Ee Hex. unfold max_num_nbrs_real_element. cbn [foldM].
  assert (W : forall es d, In e es -> (forall x, In x es -> exists v, lookup d x = Ok v) ->
    foldM (fun d e => bind (an e) (fun z => bind (count_element dist leb sup rcut z c) (fun k => bind (lookup d e) (fun old => Ok (if old <? k then update d e k else d))))) es d = Err ex).
  { induction es as [|x es IH]; intros d I Hd; [destruct I|]. cbn [foldM]. destruct (an x) as [z|y] eqn:Ex; [|cbn [bind]; rewrite (Hex x y Ex); reflexivity]. cbn [bind].
    destruct (count_element_ok sup rcut z c Hc) as (k & Ek & _). rewrite Ek. cbn [bind]. destruct (Hd x (or_introl eq_refl)) as (v & Hv). rewrite Hv. cbn [bind].
    apply IH; [destruct I as [->|I]; [congruence|exact I]|]. intros y Iy. destruct (v <? k); [rewrite lookup_update; destruct (String.eqb y x); [eexists; reflexivity|]|]; apply Hd; right; exact Iy. }
  rewrite W; [reflexivity|exact Ie|]. intros x Ix. exists 0. rewrite lookup_fromkeys. assert (X : existsb (String.eqb x) elements = true) by (apply existsb_exists; exists x; split; [exact Ix|apply String.eqb_refl]). rewrite X. reflexivity.
Qed.
End Counts.

(** *** Registries *)
Lemma reg_get_set r k v x : reg_get (reg_set r k v) x = if String.eqb x k then Ok v else reg_get r x.
Proof.
  induction r as [|[k' v'] r IH]; cbn [reg_set reg_get]; [destruct (String.eqb x k); reflexivity|].
  destruct (String.eqb k k') eqn:E.
  - apply String.eqb_eq in E. subst k'. cbn [reg_get]. destruct (String.eqb x k); reflexivity.
  - cbn [reg_get]. rewrite IH. destruct (String.eqb x k') eqn:E1; [|reflexivity]. apply String.eqb_eq in E1. subst k'. rewrite String.eqb_sym, E. reflexivity.
Qed.
Lemma registered_get h name : reg_get (registered h) name = match find (fun e => String.eqb name (fst e)) (rev h) with Some e => Ok (snd e) | None => Err KeyError end.
Proof.
  unfold registered. induction h as [|e h IH] using rev_ind; [reflexivity|]. rewrite fold_left_app, rev_app_distr. cbn [fold_left rev app find register fst]. rewrite reg_get_set. destruct (String.eqb name (fst e)); [reflexivity|exact IH].
Qed.
Lemma last_registered_find {V} (h : list (string * V)) name v : last_registered h name v <-> exists e, find (fun e => String.eqb name (fst e)) (rev h) = Some e /\ snd e = v.
Proof.
  induction h as [|e h IH] using rev_ind.
  - split; [intros (h1 & h2 & E & _); destruct h1; discriminate|intros (e & E & _); discriminate].
  - rewrite rev_app_distr. cbn [rev app find]. destruct (String.eqb name (fst e)) eqn:E.
    + apply String.eqb_eq in E. destruct e as [n x]. cbn in E. subst n. split.
      * intros (h1 & h2 & Eh & F). exists (name, x). split; [reflexivity|]. destruct h2 as [|e2 h2] using rev_ind; [apply app_inj_tail in Eh; destruct Eh as [_ Eh]; cbn; congruence|].
        clear IHh2. rewrite app_comm_cons, app_assoc in Eh. apply app_inj_tail in Eh. destruct Eh as [_ <-]. apply Forall_app in F. destruct F as [_ F]. inversion F; subst. cbn in *. congruence.
      * intros (e & [= <-] & <-). exists h, []. split; [reflexivity|constructor].
    + apply String.eqb_neq in E. rewrite <- IH. split.
      * intros (h1 & h2 & Eh & F). destruct h2 as [|e2 h2] using rev_ind; [apply app_inj_tail in Eh; destruct Eh as [_ ->]; cbn in E; congruence|].
        clear IHh2. rewrite app_comm_cons, app_assoc in Eh. apply app_inj_tail in Eh. destruct Eh as [-> ->]. exists h1, h2. split; [reflexivity|]. apply Forall_app in F. apply F.
      * intros (h1 & h2 & -> & F). exists h1, (h2 ++ [e]). split; [rewrite <- app_assoc; reflexivity|]. apply Forall_app. split; [exact F|]. constructor; [congruence|constructor].
Qed.
Lemma create_registered h name : (forall c, last_registered h name (Some c) -> create (registered h) name = Ok c) /\
  (last_registered h name None -> create (registered h) name = Err ValueError) /\
  ((forall v, ~ last_registered h name v) -> create (registered h) name = Err KeyError).
Proof.
  unfold create. rewrite registered_get. split; [|split].
  - intros c H. apply last_registered_find in H. destruct H as (e & -> & E). cbn [bind]. rewrite E. reflexivity.
  - intros H. apply last_registered_find in H. destruct H as (e & -> & E). cbn [bind]. rewrite E. reflexivity.
  - intros H. destruct (find _ (rev h)) as [e|] eqn:E; [|reflexivity]. exfalso. apply (H (snd e)). apply last_registered_find. exists e. split; [exact E|reflexivity].
Qed.
Lemma decorated_name_unusable (h : list (string * option nat)) (name other : string) (c : nat) :
  let (r, bound) := register (registered h) name (Some c) in
  call bound = Err TypeError /\ create r name = Ok c /\ create (fst (register r other bound)) other = Err ValueError.
Proof. cbn [register fst]. split; [reflexivity|]. unfold create. rewrite !reg_get_set, !String.eqb_refl. split; reflexivity. Qed.
