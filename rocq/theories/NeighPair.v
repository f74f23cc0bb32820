(** Lemmas about the features and index lists of element pairs. *)
From Verif Require Import Arr Vec StructModel SiteIndexModel SeModel NeighModel NeighSpec StructProofs NeighProofs NeighCounts.
From Coq Require Import ZifyBool.
Open Scope nat_scope.

Lemma combine_maps {A B C} (f : A -> B) (g : A -> C) l : combine (map f l) (map g l) = map (fun x => (f x, g x)) l.
Proof. induction l as [|x l IH]; [reflexivity|]. cbn. rewrite IH. reflexivity. Qed.
Lemma filter_map_comm {A B} (f : A -> B) (p : B -> bool) l : filter p (map f l) = map f (filter (fun x => p (f x)) l).
Proof. induction l as [|x l IH]; [reflexivity|]. cbn. destruct (p (f x)); cbn; rewrite IH; reflexivity. Qed.
Lemma mapM_map_ok {A B C} (g : A -> B) (f : B -> result C) (h : A -> C) l : (forall x, In x l -> f (g x) = Ok (h x)) -> mapM f (map g l) = Ok (map h l).
Proof.
  induction l as [|x l IH]; intros H; [reflexivity|]. cbn [map mapM]. rewrite (H x (or_introl eq_refl)), IH by (intros y Hy; apply H; right; exact Hy). reflexivity.
Qed.

(** A mask built from one shown row applied to another. *)
Lemma select_rest {A} (b : bool) (nbr : Z) (zf : nat -> Z) (g : nat -> A) (y : A) rest k : nbr <> 0%Z ->
  select (map (fun z => b && (z =? nbr)%Z) (map zf rest ++ repeat 0%Z k)) (map g rest ++ repeat y k) =
  if b then map g (filter (fun j => (zf j =? nbr)%Z) rest) else [].
Proof.
  intros Hn. destruct b.
  - cbn [andb]. induction rest as [|j rest IH]; cbn [map app].
    + cbn [filter]. induction k as [|k IHk]; [reflexivity|]. cbn [repeat map select]. replace (0 =? nbr)%Z with false by lia. exact IHk.
    + cbn [select filter]. destruct (zf j =? nbr)%Z; cbn [map]; rewrite IH; reflexivity.
  - cbn [andb]. generalize (map zf rest ++ repeat 0%Z k), (map g rest ++ repeat y k). clear. intros l. induction l as [|z l IH]; intros [|x r]; try reflexivity. cbn. apply IH.
Qed.
Lemma count_select {A} m : forall l : list A, length m = length l -> count_mask m = length (select m l).
Proof. unfold count_mask. induction m as [|b m IH]; intros [|x l] H; try discriminate; [reflexivity|]. cbn in *. destruct b; cbn; rewrite (IH l) by lia; reflexivity. Qed.

Section Pair.
Context {P D : Type}.
Variables (dist : P -> P -> D) (leb : D -> D -> bool) (zeroP : P) (zeroD : D).
Variable sub : P -> P -> P.
Variable sup : list (Z * P).
Notation at_ j := (nth j sup (0%Z, zeroP)).
Notation padded f z w sel := (map (fun j => f (at_ j)) sel ++ repeat z (w - length sel)).

Definition canon (w : nat) (c : nat) (sel : list nat) : list Z * list D * list P :=
  (padded fst 0%Z w sel, padded (fun a => dist (snd a) (snd (at_ c))) zeroD w sel, padded snd zeroP w sel).

Lemma shows_eq {A} (f : Z * P -> A) z w sel row : shows f z w sup sel row -> row = padded f z w sel /\ length sel <= w.
Proof.
  intros (vals & F & L & ->). split; [|exact L]. f_equal. clear L. induction F as [|j v sel vals (a & Ha & ->) F IH]; [reflexivity|]. cbn [map]. rewrite <- IH. f_equal. rewrite (nth_error_nth _ _ _ Ha). reflexivity.
Qed.

(** A table all of whose rows show the centre first. *)
Definition pairs_of (key : list nat) (rests : list (list nat)) : list (nat * list nat) := combine key rests.
Variables (w : nat) (key : list nat) (rests : list (list nat)).
Hypothesis Hlen : length rests = length key.
Hypothesis Hkey : key <> [].
Hypothesis Hw : forall r, In r rests -> S (length r) <= w.
Let prs := pairs_of key rests.
Let table := map (fun pr => canon w (fst pr) (fst pr :: snd pr)) prs.

Variables center nbr : Z.
Hypothesis Hnbr : nbr <> 0%Z.
Definition is_centre (c : nat) : bool := (fst (at_ c) =? center)%Z.
Definition flt (rest : list nat) : list nat := filter (fun j => (fst (at_ j) =? nbr)%Z) rest.
Definition real_of (ps : list (nat * list nat)) : nat := list_max0 (map (fun pr => if is_centre (fst pr) then length (flt (snd pr)) else 0) ps).

Lemma prs_width pr : In pr prs -> S (length (snd pr)) <= w.
Proof. intros H. destruct pr as [c r]. apply in_combine_r in H. exact (Hw r H). Qed.
Lemma prs_nonempty : prs <> [].
Proof. unfold prs, pairs_of. destruct key as [|c k]; [contradiction|]. destruct rests; [discriminate|]. discriminate. Qed.

Definition mask_of (pr : nat * list nat) : list bool :=
  false :: map (fun z => is_centre (fst pr) && (z =? nbr)%Z) (map (fun j => fst (at_ j)) (snd pr) ++ repeat 0%Z (w - S (length (snd pr)))).
Lemma masks_ok : masks center nbr (map (fun r => fst (fst r)) table) = Ok (map (fun pr => (is_centre (fst pr), mask_of pr)) prs).
Proof.
  unfold masks, table. rewrite map_map. remember (map (fun pr => fst (fst (canon w (fst pr) (fst pr :: snd pr)))) prs) as rows eqn:E. symmetry in E. destruct rows as [|x l]; [apply map_eq_nil in E; exfalso; exact (prs_nonempty E)|]. rewrite <- E. clear E x l.
  apply mapM_map_ok. intros pr _. reflexivity.
Qed.
Lemma mask_len pr : In pr prs -> length (mask_of pr) = w.
Proof. intros H. apply prs_width in H. unfold mask_of. cbn [length]. rewrite map_length, app_length, map_length, repeat_length. lia. Qed.
Lemma masked_ok {A} (f : nat -> A) z pr : In pr prs ->
  masked (mask_of pr) (f (fst pr) :: map f (snd pr) ++ repeat z (w - S (length (snd pr)))) = Ok (if is_centre (fst pr) then map f (flt (snd pr)) else []).
Proof.
  intros H. assert (W := prs_width pr H). unfold masked. replace (length (mask_of pr) =? _) with true.
  - f_equal. unfold mask_of. cbn [select]. rewrite (select_rest _ nbr (fun j => fst (at_ j)) f z) by exact Hnbr. reflexivity.
  - symmetry. apply Nat.eqb_eq. rewrite mask_len by exact H. cbn [length]. rewrite app_length, map_length, repeat_length. lia.
Qed.
Lemma count_mask_ok pr : In pr prs -> count_mask (mask_of pr) = if is_centre (fst pr) then length (flt (snd pr)) else 0.
Proof.
  intros H. assert (M := masked_ok (fun j => j) 0 pr H). unfold masked in M. destruct (_ =? _) eqn:E in M; [|discriminate]. apply Nat.eqb_eq in E. match type of M with Ok ?a = Ok ?b => assert (M' : a = b) by congruence end. clear M.
  rewrite (count_select _ _ E), M'. destruct (is_centre (fst pr)); [apply map_length|reflexivity].
Qed.
Lemma real_ok : list_max0 (map (fun m => count_mask (snd m)) (map (fun pr => (is_centre (fst pr), mask_of pr)) prs)) = real_of prs.
Proof. unfold real_of. f_equal. rewrite map_map. apply map_ext_in. intros pr H. cbn [snd]. apply count_mask_ok, H. Qed.
Lemma real_bound pr : In pr prs -> is_centre (fst pr) = true -> length (flt (snd pr)) <= real_of prs.
Proof.
  intros H Hc. apply list_max0_spec. apply in_map_iff. exists pr. rewrite Hc. split; [reflexivity|exact H].
Qed.
Definition chosen : list (nat * list nat) := filter (fun pr => is_centre (fst pr)) prs.

Lemma indices_ok (site_index : P -> nat) (mx : option nat) :
  _get_nbrs_indices zeroP site_index table center nbr mx =
  let rows := map (fun pr => map (fun j => site_index (snd (at_ j))) (flt (snd pr)) ++ repeat (site_index zeroP) (real_of prs - length (flt (snd pr)))) chosen in
  match mx with
  | None | Some 0 => Ok rows
  | Some m => mapM (fun r => write_prefix 0 m (real_of prs) r) rows
  end.
Proof.
  unfold _get_nbrs_indices. rewrite masks_ok. cbn [bind]. rewrite real_ok. unfold table at 1. rewrite combine_maps, filter_map_comm. cbn [fst].
  rewrite (mapM_map_ok _ _ (fun pr => map (fun j => snd (at_ j)) (flt (snd pr)) ++ repeat zeroP (real_of prs - length (flt (snd pr))))).
  - cbn [bind]. rewrite map_map. cbv zeta. fold chosen.
    rewrite (map_ext (fun x => map site_index (map (fun j => snd (at_ j)) (flt (snd x)) ++ repeat zeroP (real_of prs - length (flt (snd x)))))
      (fun pr => map (fun j => site_index (snd (at_ j))) (flt (snd pr)) ++ repeat (site_index zeroP) (real_of prs - length (flt (snd pr))))); [reflexivity|].
    intros pr. rewrite map_app, map_map. f_equal. induction (real_of prs - length (flt (snd pr))) as [|n IH]; [reflexivity|]. cbn. rewrite IH. reflexivity.
  - intros pr H. apply filter_In in H. destruct H as [I C]. cbn [canon length map].
    change (map (fun j => snd (at_ j)) (fst pr :: snd pr)) with (snd (at_ (fst pr)) :: map (fun j => snd (at_ j)) (snd pr)). cbn [app].
    rewrite (masked_ok (fun j => snd (at_ j)) zeroP pr I), C. cbn [bind]. rewrite map_length. reflexivity.
Qed.

Lemma extract_ok : extract_feature_pair zeroP zeroD sub table center nbr =
  Ok (real_of prs,
      (map (fun pr => map (fun j => fst (at_ j)) (flt (snd pr)) ++ repeat 0%Z (real_of prs - length (flt (snd pr)))) chosen,
       map (fun pr => map (fun j => dist (snd (at_ j)) (snd (at_ (fst pr)))) (flt (snd pr)) ++ repeat zeroD (real_of prs - length (flt (snd pr)))) chosen,
       map (fun pr => map (fun j => sub (snd (at_ j)) (snd (at_ (fst pr)))) (flt (snd pr)) ++ repeat zeroP (real_of prs - length (flt (snd pr)))) chosen)).
Proof.
  unfold extract_feature_pair. rewrite masks_ok. cbn [bind]. rewrite real_ok.
  assert (Rel : mapM (fun r : list Z * list D * list P => bind (get (snd r) 0) (fun c0 => Ok (map (fun p => sub p c0) (snd r)))) table =
    Ok (map (fun pr => map (fun p => sub p (snd (at_ (fst pr)))) (snd (canon w (fst pr) (fst pr :: snd pr)))) prs)).
  { unfold table. apply mapM_map_ok. intros pr _. reflexivity. }
  rewrite Rel. cbn [bind]. unfold table. rewrite combine_maps, combine_maps, filter_map_comm. cbn [fst].
  rewrite (mapM_map_ok _ _ (fun pr => (map (fun j => fst (at_ j)) (flt (snd pr)) ++ repeat 0%Z (real_of prs - length (flt (snd pr))),
       map (fun j => dist (snd (at_ j)) (snd (at_ (fst pr)))) (flt (snd pr)) ++ repeat zeroD (real_of prs - length (flt (snd pr))),
       map (fun j => sub (snd (at_ j)) (snd (at_ (fst pr)))) (flt (snd pr)) ++ repeat zeroP (real_of prs - length (flt (snd pr)))))).
  - cbn [bind]. rewrite !map_map. reflexivity.
  - intros pr H. apply filter_In in H. destruct H as [I C]. cbn [canon length snd].
    change (map (fun j => fst (at_ j)) (fst pr :: snd pr)) with (fst (at_ (fst pr)) :: map (fun j => fst (at_ j)) (snd pr)).
    change (map (fun j => dist (snd (at_ j)) (snd (at_ (fst pr)))) (fst pr :: snd pr)) with (dist (snd (at_ (fst pr))) (snd (at_ (fst pr))) :: map (fun j => dist (snd (at_ j)) (snd (at_ (fst pr)))) (snd pr)).
    cbn [app]. rewrite (masked_ok (fun j => fst (at_ j)) 0%Z pr I), C. cbn [bind].
    rewrite (masked_ok (fun j => dist (snd (at_ j)) (snd (at_ (fst pr)))) zeroD pr I), C. cbn [bind].
    rewrite map_app, map_map. assert (R : forall n, map (fun p => sub p (snd (at_ (fst pr)))) (repeat zeroP n) = repeat (sub zeroP (snd (at_ (fst pr)))) n) by (clear; induction n as [|n IH]; [reflexivity|cbn; rewrite IH; reflexivity]).
    rewrite R. change (map (fun x => sub (snd (at_ x)) (snd (at_ (fst pr)))) (fst pr :: snd pr)) with (sub (snd (at_ (fst pr))) (snd (at_ (fst pr))) :: map (fun j => sub (snd (at_ j)) (snd (at_ (fst pr)))) (snd pr)).
    cbn [app]. rewrite (masked_ok (fun j => sub (snd (at_ j)) (snd (at_ (fst pr)))) (sub zeroP (snd (at_ (fst pr)))) pr I), C. cbn [bind].
    rewrite (count_mask_ok pr I), C. assert (B := real_bound pr I C).
    assert (WP : forall A (z : A) vals, length vals = length (flt (snd pr)) -> write_prefix z (real_of prs) (length (flt (snd pr))) vals = Ok (vals ++ repeat z (real_of prs - length (flt (snd pr))))).
    { intros A z vals E. unfold write_prefix. rewrite E, Nat.min_l, Nat.eqb_refl by exact B. reflexivity. }
    rewrite !WP by apply map_length. reflexivity.
Qed.
End Pair.
