(** The input of a force field: closed forms. *)
From Verif Require Import Arr Vec StructModel SiteIndexModel SeModel NeighModel StatsModel InferModel NeighSpec SeSpec InferSpec.
From Verif Require Import NeighProofs NeighCounts NeighPair NeighGlue NeighReal SeProofs.
From Coq Require Import ZifyBool.
Open Scope nat_scope.

(** *** Lists *)
Lemma mapM_enum_from {X A B} (f : nat * A -> result B) (p : X -> A) (h : X -> B) : forall (l : list X) k,
  (forall i x, nth_error l i = Some x -> f (k + i, p x) = Ok (h x)) -> mapM f (combine (seq k (length l)) (map p l)) = Ok (map h l).
Proof.
  induction l as [|x l IH]; intros k H; [reflexivity|]. cbn [length seq combine map mapM]. assert (H0 := H 0 x eq_refl). rewrite Nat.add_0_r in H0. rewrite H0. cbn [bind].
  rewrite (IH (S k)); [reflexivity|]. intros i y Hy. replace (S k + i) with (k + S i) by lia. apply H. exact Hy.
Qed.
Lemma mapM_enumerate {X A B} (f : nat * A -> result B) (p : X -> A) (h : X -> B) (l : list X) :
  (forall i x, nth_error l i = Some x -> f (i, p x) = Ok (h x)) -> mapM f (enumerate (map p l)) = Ok (map h l).
Proof. intros H. unfold enumerate. rewrite map_length. apply mapM_enum_from. exact H. Qed.
Lemma mapM_all {X B} (f : X -> result B) (h : X -> B) (l : list X) : (forall x, In x l -> f x = Ok (h x)) -> mapM f l = Ok (map h l).
Proof. intros H. rewrite <- (map_id l) at 1. apply mapM_map_ok. exact H. Qed.
Lemma get_map {X B} (p : X -> B) l i x : nth_error l i = Some x -> get (map p l) i = Ok (p x).
Proof. intros H. unfold get. rewrite nth_error_map, H. reflexivity. Qed.

(** *** Concatenation *)
Lemma hcat2_maps {X F} (f g : X -> list F) l : hcat2 (map f l) (map g l) = map (fun x => f x ++ g x) l.
Proof. induction l as [|x l IH]; [reflexivity|]. cbn. rewrite IH. reflexivity. Qed.
Lemma fold_hcat2 {X I F} (f : I -> X -> list F) (is : list I) (l : list X) : forall g : X -> list F,
  fold_left hcat2 (map (fun i => map (f i) l) is) (map g l) = map (fun x => g x ++ concat (map (fun i => f i x) is)) l.
Proof.
  induction is as [|j is IH]; intros g; cbn [map fold_left concat]; [apply map_ext; intros x; rewrite app_nil_r; reflexivity|].
  rewrite hcat2_maps, IH. apply map_ext. intros x. rewrite app_assoc. reflexivity.
Qed.
Lemma hcat_maps {X I F} (f : I -> X -> list F) (is : list I) (l : list X) : is <> [] ->
  hcat (map (fun i => map (f i) l) is) = Ok (map (fun x => concat (map (fun i => f i x) is)) l).
Proof.
  destruct is as [|i is]; [contradiction|]. intros _. cbn [map hcat]. replace (forallb _ _) with true.
  - f_equal. apply fold_hcat2.
  - symmetry. apply forallb_forall. intros q Hq. apply in_map_iff in Hq. destruct Hq as (j & <- & _). rewrite !map_length. apply Nat.eqb_refl.
Qed.
Lemma vcat_all {F} (parts : list (list (list F))) W : parts <> [] -> (forall p r, In p parts -> In r p -> length r = W) -> vcat parts = Ok (concat parts).
Proof.
  intros H Hw. unfold vcat. destruct parts as [|p ps]; [contradiction|]. assert (Hc : forall r, In r (concat (p :: ps)) -> length r = W).
  { intros r Hr. apply in_concat in Hr. destruct Hr as (q & Hq & Hr). exact (Hw q r Hq Hr). }
  destruct (concat (p :: ps)) as [|r rest]; [reflexivity|]. replace (forallb _ rest) with true; [reflexivity|]. symmetry. apply forallb_forall. intros x Hx.
  rewrite (Hc x (or_intror Hx)), (Hc r (or_introl eq_refl)). apply Nat.eqb_refl.
Qed.
Lemma zip_hcat2 (a b : list (list nat)) : zip_app a b = hcat2 a b.
Proof. revert b. induction a as [|x a IH]; intros [|y b]; cbn; try reflexivity. rewrite IH. reflexivity. Qed.
Lemma concat1_maps {X I} (wd : I -> nat) (f : I -> X -> list nat) (is : list I) (l : list X) : is <> [] -> (forall i, In i is -> wd i <> 0) ->
  concat1 (map (fun i => (wd i, map (f i) l)) is) = Ok (map (fun x => concat (map (fun i => f i x) is)) l).
Proof.
  intros Hi Hw. destruct is as [|i is]; [contradiction|]. unfold concat1. cbn [map]. 
  replace (forallb _ _ && forallb _ _) with true.
  - f_equal. rewrite map_map. cbn [snd]. cbn [concat]. rewrite <- fold_hcat2. generalize (map (f i) l) (map (fun i0 => map (f i0) l) is). clear. intros a ps. revert a.
    induction ps as [|p ps IH]; intros a; [reflexivity|]. cbn [fold_left]. rewrite zip_hcat2. apply IH.
  - symmetry. apply andb_true_iff. split; apply forallb_forall.
    + intros wp Hq. change ((wd i, map (f i) l) :: map (fun i0 => (wd i0, map (f i0) l)) is) with (map (fun i0 => (wd i0, map (f i0) l)) (i :: is)) in Hq. apply in_map_iff in Hq. destruct Hq as (j & <- & Hj).
      cbn [fst snd]. unfold two_dim. destruct (map (f j) l); [|reflexivity]. specialize (Hw j Hj). apply negb_true_iff, Nat.eqb_neq. exact Hw.
    + intros wp Hq. apply in_map_iff in Hq. destruct Hq as (j & <- & _). cbn [snd]. rewrite !map_length. apply Nat.eqb_refl.
Qed.
Lemma agree_all (parts : list (list (list nat))) W : (forall p r, In p parts -> In r p -> length r = W) -> widths_agree parts = true.
Proof.
  intros Hw. unfold widths_agree. assert (Hc : forall r, In r (concat parts) -> length r = W).
  { intros r Hr. apply in_concat in Hr. destruct Hr as (q & Hq & Hr). exact (Hw q r Hq Hr). }
  destruct (concat parts) as [|r rest]; [reflexivity|]. apply forallb_forall. intros x Hx. rewrite (Hc x (or_intror Hx)), (Hc r (or_introl eq_refl)). apply Nat.eqb_refl.
Qed.

(** *** Dictionaries *)
Lemma dict_get_in {F} (d : list ((Z * Z) * list (list F))) c n b : NoDup (map fst d) -> In ((c, n), b) d -> dict_get d c n = Ok b.
Proof.
  induction d as [|[[c' n'] b'] d IH]; intros Nd H; [destruct H|]. cbn [map fst] in Nd. inversion Nd as [|? ? Nk Nd']; subst. cbn [dict_get]. destruct H as [H|H].
  - injection H as -> -> ->. rewrite !Z.eqb_refl. reflexivity.
  - destruct ((c =? c')%Z && (n =? n')%Z) eqn:E; [|apply IH; assumption]. exfalso. apply andb_true_iff in E. destruct E as [E1 E2]. apply Z.eqb_eq in E1, E2. subst.
    apply Nk. apply in_map_iff. exists ((c', n'), b). split; [reflexivity|exact H].
Qed.
Lemma nodup_join {X} (a b : list X) : NoDup a -> NoDup b -> (forall x, In x a -> ~ In x b) -> NoDup (a ++ b).
Proof.
  induction a as [|x a IH]; intros Na Nb H; [exact Nb|]. inversion Na as [|? ? Nx Na']; subst. cbn [app]. constructor.
  - rewrite in_app_iff. intros [I|I]; [exact (Nx I)|exact (H x (or_introl eq_refl) I)].
  - apply IH; [exact Na'|exact Nb|]. intros y Hy. apply H. right. exact Hy.
Qed.
Lemma product_nodup {X Y} (f : X -> Z) (g : Y -> Z) xs ys : NoDup (map f xs) -> NoDup (map g ys) -> NoDup (concat (map (fun x => map (fun y => (f x, g y)) ys) xs)).
Proof.
  intros Nx Ny. induction xs as [|x xs IH]; [constructor|]. cbn [map concat]. cbn [map] in Nx. inversion Nx as [|? ? Nk Nx']; subst.
  assert (Nh : NoDup (map (fun y => (f x, g y)) ys)). { clear - Ny. induction ys as [|y ys IH]; [constructor|]. cbn [map] in *. inversion Ny as [|? ? Nk Ny']; subst. constructor; [|apply IH; exact Ny'].
    intros H. apply Nk. apply in_map_iff in H. destruct H as (y' & E & Hy). injection E as E. rewrite <- E. apply in_map. exact Hy. }
  apply nodup_join; [exact Nh|exact (IH Nx')|].
  intros k Hk Hc. apply in_map_iff in Hk. destruct Hk as (y & <- & _). apply in_concat in Hc. destruct Hc as (l & Hl & Hk). apply in_map_iff in Hl. destruct Hl as (x' & <- & Hx). apply in_map_iff in Hk. destruct Hk as (y' & E & _).
  injection E as E _. apply Nk. rewrite <- E. apply in_map. exact Hx.
Qed.

(** *** Blocks of one element pair *)
Section Blocks.
Variables (sup : list (Z * vec)) (w : nat) (key : list nat) (rests : list (list nat)).
Hypothesis Hlen : length rests = length key.
Hypothesis Hkey : key <> [].
Hypothesis Hw : forall r, In r rests -> S (length r) <= w.
Notation table := (map (fun pr => canon vdist vzero 0%R sup w (fst pr) (fst pr :: snd pr)) (pairs_of key rests)).
Notation at_ j := (nth j sup (0%Z, vzero)).
Notation ch c := (chosen vzero sup key rests c).
Notation sel z pr := (flt vzero sup z (snd pr)).
Notation real c z := (real_of vzero sup c z (pairs_of key rests)).

(** A row of a block: a value per neighbour and a filler. *)
Definition filled {F} (f : nat * list nat -> nat -> F) (zero : F) (pr : nat * list nat) (zw : Z * nat) : list F :=
  map (f pr) (sel (fst zw) pr) ++ repeat zero (snd zw - length (sel (fst zw) pr)).

Lemma sel_real c z pr : In pr (ch c) -> length (sel z pr) <= real c z.
Proof. intros H. apply filter_In in H. destruct H as [I Hc]. exact (real_bound vzero sup key rests c z pr I Hc). Qed.

Lemma rc_block c zw : fst zw <> 0%Z -> real c (fst zw) <= snd zw ->
  expand_rc vzero 0%R vsub table c (fst zw) (snd zw) = Ok (map (fun pr => filled (fun pr j => vsub (snd (at_ j)) (snd (at_ (fst pr)))) vzero pr zw) (ch c)).
Proof.
  intros Hz Hr. unfold expand_rc. rewrite (extract_ok vdist vzero 0%R vsub sup w key rests Hlen Hkey Hw c (fst zw) Hz). cbn [bind]. replace (real c (fst zw) <=? snd zw) with true by lia.
  f_equal. rewrite map_map. apply map_ext_in. intros pr Ip. assert (L := sel_real c (fst zw) pr Ip). unfold filled. rewrite <- app_assoc. f_equal. rewrite <- repeat_app. f_equal. lia.
Qed.
Lemma rc_narrow c zw : fst zw <> 0%Z -> snd zw < real c (fst zw) -> expand_rc vzero 0%R vsub table c (fst zw) (snd zw) = Err AssertionError.
Proof.
  intros Hz Hr. unfold expand_rc. rewrite (extract_ok vdist vzero 0%R vsub sup w key rests Hlen Hkey Hw c (fst zw) Hz). cbn [bind]. replace (real c (fst zw) <=? snd zw) with false by lia. reflexivity.
Qed.
Lemma combine_repeat {X Y} (x : X) (y : Y) n : combine (repeat x n) (repeat y n) = repeat (x, y) n.
Proof. induction n as [|n IH]; [reflexivity|]. cbn. rewrite IH. reflexivity. Qed.
Lemma map_repeat {X Y} (f : X -> Y) x n : map f (repeat x n) = repeat (f x) n.
Proof. induction n as [|n IH]; [reflexivity|]. cbn. rewrite IH. reflexivity. Qed.
Lemma combine_app {X Y} (a a' : list X) (b b' : list Y) : length a = length b -> combine (a ++ a') (b ++ b') = combine a b ++ combine a' b'.
Proof. revert b. induction a as [|x a IH]; intros [|y b] E; try discriminate; [reflexivity|]. cbn. rewrite IH by (cbn in E; lia). reflexivity. Qed.

Lemma pair_block {F} (f : R -> vec -> F) zero c zw : f 0%R vzero = zero -> real c (fst zw) <= snd zw ->
  widen zero (real c (fst zw)) (snd zw)
    (pair_rows f (map (fun pr => map (fun j => vdist (snd (at_ j)) (snd (at_ (fst pr)))) (sel (fst zw) pr) ++ repeat 0%R (real c (fst zw) - length (sel (fst zw) pr))) (ch c))
                 (map (fun pr => map (fun j => vsub (snd (at_ j)) (snd (at_ (fst pr)))) (sel (fst zw) pr) ++ repeat vzero (real c (fst zw) - length (sel (fst zw) pr))) (ch c)))
  = Ok (map (fun pr => filled (fun pr j => f (vdist (snd (at_ j)) (snd (at_ (fst pr)))) (vsub (snd (at_ j)) (snd (at_ (fst pr))))) zero pr zw) (ch c)).
Proof.
  intros Hf Hr. unfold widen. replace (real c (fst zw) <=? snd zw) with true by lia. f_equal. unfold pair_rows. rewrite combine_maps, !map_map. apply map_ext_in. intros pr Ip. cbn [fst snd].
  assert (L := sel_real c (fst zw) pr Ip). unfold filled. rewrite combine_app by (rewrite !map_length; reflexivity). rewrite combine_maps, combine_repeat, map_app, map_map, map_repeat. cbn [fst snd]. rewrite Hf.
  rewrite <- app_assoc. f_equal. rewrite <- repeat_app. f_equal. lia.
Qed.

(** Index rows: the filler changes from [pad] to 0. *)
Definition indexed (si : vec -> nat) (c : Z) (pr : nat * list nat) (zw : Z * nat) : list nat :=
  (map (fun j => si (snd (at_ j))) (sel (fst zw) pr) ++ repeat (si vzero) (real c (fst zw) - length (sel (fst zw) pr))) ++ repeat 0 (snd zw - real c (fst zw)).
Lemma index_block si c zw : fst zw <> 0%Z -> 0 < snd zw -> real c (fst zw) <= snd zw ->
  _get_nbrs_indices vzero si table c (fst zw) (Some (snd zw)) = Ok (map (fun pr => indexed si c pr zw) (ch c)).
Proof.
  intros Hz Hp Hr. rewrite (indices_ok vdist vzero 0%R sup w key rests Hlen Hkey Hw c (fst zw) Hz si (Some (snd zw))). cbv zeta. destruct (snd zw) as [|m] eqn:Em; [lia|].
  apply mapM_map_ok. intros pr Ip. assert (L := sel_real c (fst zw) pr Ip). unfold write_prefix, indexed. rewrite app_length, map_length, repeat_length, Nat.min_l by lia.
  replace (length (sel (fst zw) pr) + (real c (fst zw) - length (sel (fst zw) pr)) =? real c (fst zw)) with true by lia. rewrite Em. reflexivity.
Qed.

Lemma filled_length {F} (f : nat * list nat -> nat -> F) zero c pr zw : In pr (ch c) -> real c (fst zw) <= snd zw -> length (filled f zero pr zw) = snd zw.
Proof. intros Ip Hr. assert (L := sel_real c (fst zw) pr Ip). unfold filled. rewrite app_length, map_length, repeat_length. lia. Qed.
Lemma indexed_length si c pr zw : In pr (ch c) -> real c (fst zw) <= snd zw -> length (indexed si c pr zw) = snd zw.
Proof. intros Ip Hr. assert (L := sel_real c (fst zw) pr Ip). unfold indexed. rewrite !app_length, map_length, !repeat_length. lia. Qed.
Lemma concat_widths {F} (f : Z * nat -> list F) zws : (forall zw, In zw zws -> length (f zw) = snd zw) -> length (concat (map f zws)) = list_sum (map snd zws).
Proof. induction zws as [|zw zws IH]; intros H; [reflexivity|]. cbn [map concat list_sum fold_right]. rewrite app_length, (H zw (or_introl eq_refl)), IH by (intros x Hx; apply H; right; exact Hx). reflexivity. Qed.

(** *** All pairs *)
Variables (rcut rs : R) (A B C : vec) (rnd : R -> Z).
Variables (zws : list (Z * nat)) (cs : list (Z * (list R * list R))).
Hypothesis Hzws : zws <> [].
Hypothesis Hcs : cs <> [].
Hypothesis Hz : forall zw, In zw zws -> fst zw <> 0%Z.
Hypothesis Hfit : forall c zw, In c (map fst cs) -> In zw zws -> real c (fst zw) <= snd zw.

Lemma map_nonempty {X Y} (f : X -> Y) l : l <> [] -> map f l <> [].
Proof. destruct l; [contradiction|discriminate]. Qed.

Lemma all_rc : infer_rc (map fst cs) (map fst zws) (map snd zws) table =
  Ok (concat (map (fun c => map (fun pr => concat (map (filled (fun pr j => vsub (snd (at_ j)) (snd (at_ (fst pr)))) vzero pr) zws)) (ch c)) (map fst cs))).
Proof.
  unfold infer_rc. rewrite (mapM_all _ (fun c => map (fun pr => concat (map (filled (fun pr j => vsub (snd (at_ j)) (snd (at_ (fst pr)))) vzero pr) zws)) (ch c))).
  - cbn [bind]. apply (vcat_all _ (list_sum (map snd zws))); [apply map_nonempty, map_nonempty, Hcs|]. intros p r Hp Hr. apply in_map_iff in Hp. destruct Hp as (c & <- & Hc). apply in_map_iff in Hr. destruct Hr as (pr & <- & Ip).
    apply concat_widths. intros zw Hq. apply (filled_length _ _ c); [exact Ip|apply Hfit; assumption].
  - intros c Hc. rewrite (mapM_enumerate _ fst (fun zw => map (fun pr => filled (fun pr j => vsub (snd (at_ j)) (snd (at_ (fst pr)))) vzero pr zw) (ch c))).
    + cbn [bind]. apply (hcat_maps (fun zw pr => filled (fun pr j => vsub (snd (at_ j)) (snd (at_ (fst pr)))) vzero pr zw)). exact Hzws.
    + intros i zw Hi. cbn [fst snd]. rewrite (get_map snd _ _ _ Hi). cbn [bind]. assert (I := nth_error_In _ _ Hi). apply rc_block; [apply Hz, I|apply Hfit; assumption].
Qed.

Lemma all_index si : (forall zw, In zw zws -> 0 < snd zw) -> get_nbrs_indices vzero si table (map fst cs) (map fst zws) (Some (map snd zws)) =
  Ok (concat (map (fun c => map (fun pr => concat (map (indexed si c pr) zws)) (ch c)) (map fst cs))).
Proof.
  intros Hp. unfold get_nbrs_indices. rewrite (mapM_all _ (fun c => map (fun pr => concat (map (indexed si c pr) zws)) (ch c))).
  - cbn [bind]. assert (N := map_nonempty (fun c => map (fun pr => concat (map (indexed si c pr) zws)) (ch c)) _ (map_nonempty fst _ Hcs)).
    assert (W : widths_agree (map (fun c => map (fun pr => concat (map (indexed si c pr) zws)) (ch c)) (map fst cs)) = true).
    { apply (agree_all _ (list_sum (map snd zws))). intros p r Hq Hr. apply in_map_iff in Hq. destruct Hq as (c & <- & Hc). apply in_map_iff in Hr. destruct Hr as (pr & <- & Ip).
      apply concat_widths. intros zw Hq. apply (indexed_length _ c); [exact Ip|apply Hfit; assumption]. }
    destruct (map (fun c => map (fun pr => concat (map (indexed si c pr) zws)) (ch c)) (map fst cs)) as [|p ps]; [contradiction|]. rewrite W. reflexivity.
  - intros c Hc. rewrite (mapM_enumerate _ fst (fun zw => (snd zw, map (fun pr => indexed si c pr zw) (ch c)))).
    + cbn [bind]. apply (concat1_maps snd (fun zw pr => indexed si c pr zw)); [exact Hzws|]. intros zw I. specialize (Hp zw I). lia.
    + intros i zw Hi. cbn [fst snd]. rewrite (get_map snd _ _ _ Hi). cbn [bind]. assert (I := nth_error_In _ _ Hi). rewrite index_block by (try apply Hz; try apply Hp; try apply Hfit; assumption). reflexivity.
Qed.

Definition trow (avg std : list R) (pr : nat * list nat) (j : nat) : list R :=
  norm_row avg std (py_tilde_row rcut rs (vdist (snd (at_ j)) (snd (at_ (fst pr)))) (vsub (snd (at_ j)) (snd (at_ (fst pr))))).
Definition drow (std : list R) (pr : nat * list nat) (j : nat) : list (list R) :=
  norm_deriv std (py_deriv rcut rs (vdist (snd (at_ j)) (snd (at_ (fst pr)))) (vsub (snd (at_ j)) (snd (at_ (fst pr))))).

Lemma tilde_zero : py_tilde_row rcut rs 0 vzero = zero4.
Proof.
  unfold py_tilde_row, zero4, vzero, vx, vy, vz. cbn [fst snd]. unfold py_s. destruct (Req_EM_T 0 0) as [_|N]; [|contradiction]. cbv zeta.
  assert (E : forall b : R, (if Rlt_dec rs 0 then if Rlt_dec 0 rcut then 0 * b else 0 else 0)%R = 0%R) by (intros b; destruct (Rlt_dec rs 0); [destruct (Rlt_dec 0 rcut)|]; ring). rewrite !E. repeat f_equal; ring.
Qed.
Lemma deriv_zero : py_deriv rcut rs 0 vzero = zero43.
Proof.
  unfold py_deriv, zero43, vzero, vx, vy, vz. cbn [fst snd]. destruct (Req_EM_T 0 0) as [_|N]; [|contradiction]. cbv zeta. generalize (py_vv rcut rs 0) (py_dvv rcut rs 0). intros v dv.
  repeat f_equal; ring.
Qed.
Lemma map_filled {F G} (g : F -> G) f zero pr zw : map g (filled f zero pr zw) = filled (fun pr j => g (f pr j)) (g zero) pr zw.
Proof. unfold filled. rewrite map_app, map_map, map_repeat. reflexivity. Qed.

Lemma entry_ok i j ce zw : nth_error cs i = Some ce -> nth_error zws j = Some zw ->
  pair_entry rcut rs (map (fun ce => fst (snd ce)) cs) (map (fun ce => snd (snd ce)) cs) (map snd zws) table (i, fst ce) (j, fst zw) =
  Ok ((fst ce, fst zw), (map (fun pr => filled (trow (fst (snd ce)) (snd (snd ce))) (norm_row (fst (snd ce)) (snd (snd ce)) zero4) pr zw) (ch (fst ce)),
                         map (fun pr => filled (drow (snd (snd ce))) (norm_deriv (snd (snd ce)) zero43) pr zw) (ch (fst ce)))).
Proof.
  intros Hi Hj. assert (Ij := nth_error_In _ _ Hj). assert (Ii := nth_error_In _ _ Hi). assert (Hr : real (fst ce) (fst zw) <= snd zw) by (apply Hfit; [apply in_map; exact Ii|exact Ij]).
  unfold pair_entry. cbn [fst snd]. rewrite (extract_ok vdist vzero 0%R vsub sup w key rests Hlen Hkey Hw (fst ce) (fst zw) (Hz zw Ij)). cbn [bind].
  rewrite (get_map snd _ _ _ Hj). cbn [bind]. rewrite (pair_block (py_tilde_row rcut rs) zero4 (fst ce) zw tilde_zero Hr). cbn [bind]. rewrite (pair_block (py_deriv rcut rs) zero43 (fst ce) zw deriv_zero Hr). cbn [bind].
  rewrite (get_map _ _ _ _ Hi). cbn [bind]. rewrite (get_map _ _ _ _ Hi). cbn [bind]. rewrite !map_map. f_equal. f_equal. f_equal; apply map_ext; intros pr; rewrite map_filled; reflexivity.
Qed.
End Blocks.
