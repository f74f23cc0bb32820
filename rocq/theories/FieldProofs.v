(** Saved force field parameters. *)
From Coq Require Import String Ascii.
From Verif Require Import Base DataModel DataText Arr FieldModel FieldSpec.
Local Open Scope string_scope.

Lemma key_name net p i j : key net (part_name p) i j = name_of net p i j.
Proof. reflexivity. Qed.

(** *** Names *)
Definition net_ok (net : string) : Prop := net = "embedding_net" \/ net = "fitting_net".
Lemma name_inj net p i j net' p' i' j' : net_ok net -> net_ok net' -> name_of net p i j = name_of net' p' i' j' -> net = net' /\ p = p' /\ i = i' /\ j = j'.
Proof.
  intros [-> | ->] [-> | ->] E; unfold name_of in E; try discriminate E; split; try reflexivity; apply sapp_inv in E; cbn in E; injection E as E;
  change decimal with dec in E; apply digits_split in E; try apply digits_dec; try reflexivity; destruct E as [E1 E2]; apply dec_inj in E1;
  destruct p, p'; cbn in E2; try discriminate E2; repeat (injection E2 as E2); apply dec_inj in E2; auto.
Qed.
Lemma name_other net p i j x : net_ok net -> In x ["M1"; "M2"; "embedding_sizes"; "fitting_sizes"] -> name_of net p i j <> x.
Proof. intros [-> | ->] [<-|[<-|[<-|[<-|[]]]]]; discriminate. Qed.

(** *** Dictionaries *)
Lemma lookup_ok {B} (d : list (string * B)) k b : NoDup (map fst d) -> (lookup d k = Ok b <-> In (k, b) d).
Proof.
  induction d as [|[k' b'] d IH]; intros Nd; cbn [lookup]; [split; [discriminate|intros []]|]. cbn [map fst] in Nd. inversion Nd as [|? ? Nk Nd']; subst. destruct (k =? k') eqn:E.
  - apply String.eqb_eq in E. subst. split; [intros Q; left; congruence|]. intros [Q|Q]; [congruence|]. exfalso. apply Nk. apply in_map_iff. exists (k', b). auto.
  - apply String.eqb_neq in E. rewrite (IH Nd'). split; [intros I; right; exact I|]. intros [Q|Q]; [congruence|exact Q].
Qed.
Lemma lookup_total {B} (d : list (string * B)) k : lookup d k = Err KeyError \/ exists b, lookup d k = Ok b /\ In (k, b) d.
Proof. induction d as [|[k' b'] d IH]; cbn [lookup]; [left; reflexivity|]. destruct (k =? k') eqn:E; [right; exists b'; apply String.eqb_eq in E; subst; split; [reflexivity|left; reflexivity]|]. destruct IH as [IH|(b & IH & I)]; [left; exact IH|right; exists b; split; [exact IH|right; exact I]]. Qed.

Section Save.
Context {V : Type}.
Variables (shape : V -> list nat) (checkpoint : list (string * V)).
Hypothesis Nck : NoDup (map fst checkpoint).

Lemma create_ok name (d : dataset V) file : ~ In name (map fst file) -> create name d file = Ok (file ++ [(name, d)])%list.
Proof.
  intros H. unfold create. replace (existsb _ _) with false; [reflexivity|]. symmetry. apply not_true_iff_false. intros X. apply existsb_exists in X. destruct X as (e & Ie & Ee). apply String.eqb_eq in Ee. subst. apply H. apply in_map. exact Ie.
Qed.

(** One step of the loops, with a flag for optional parameters. *)
Definition store (file : list (string * dataset V)) (it : string * bool) : result (list (string * dataset V)) :=
  match lookup checkpoint (fst it) with
  | Ok v => create (fst it) (Tensor v) file
  | Err e => if snd it then Ok file else Err e
  end.
Definition found (it : string * bool) : list (string * dataset V) :=
  match lookup checkpoint (fst it) with Ok v => [(fst it, Tensor v)] | Err _ => [] end.
Definition items (net : string) (nets layers : nat) : list (string * bool) :=
  flat_map (fun i => flat_map (fun j => [(name_of net Weight i j, false); (name_of net Bias i j, false); (name_of net Resnet i j, true)]) (seq 0 layers)) (seq 0 nets).

Lemma foldM_flat {A B T} (f : T -> B -> result T) (g : A -> list B) l s : foldM f (flat_map g l) s = foldM (fun s a => foldM f (g a) s) l s.
Proof. revert s. induction l as [|x l IH]; intros s; [reflexivity|]. cbn [flat_map foldM]. rewrite foldM_app. destruct (foldM f (g x) s); [apply IH|reflexivity]. Qed.
Lemma layer_store net i j file : save_layer checkpoint net i j file = foldM store [(name_of net Weight i j, false); (name_of net Bias i j, false); (name_of net Resnet i j, true)] file.
Proof.
  unfold save_layer. cbn [foldM]. unfold store at 1. cbn [fst snd]. unfold copy at 1. change (key net "weights.weight" i j) with (name_of net Weight i j). destruct (lookup_total checkpoint (name_of net Weight i j)) as [->|(v & -> & _)]; [reflexivity|]. cbn [bind].
  destruct (create (name_of net Weight i j) (Tensor v) file) as [f1|]; [|reflexivity]. cbn [bind]. unfold store at 1. cbn [fst snd]. unfold copy at 1. change (key net "bias.bias" i j) with (name_of net Bias i j). destruct (lookup_total checkpoint (name_of net Bias i j)) as [->|(b & -> & _)]; [reflexivity|]. cbn [bind].
  destruct (create (name_of net Bias i j) (Tensor b) f1) as [f2|]; [|reflexivity]. cbn [bind]. unfold store. cbn [fst snd]. unfold copy. change (key net "resnet_dt.resnet_dt" i j) with (name_of net Resnet i j). destruct (lookup_total checkpoint (name_of net Resnet i j)) as [->|(r & -> & _)]; [reflexivity|]. cbn [bind].
  unfold create. destruct (existsb _ _); reflexivity.
Qed.
Lemma net_store net nets layers file : save_net checkpoint net nets layers file = foldM store (items net nets layers) file.
Proof.
  unfold save_net, items. rewrite foldM_flat. apply foldM_ext. intros i _ s. rewrite foldM_flat. apply foldM_ext. intros j _ s'. apply layer_store.
Qed.

Lemma store_all its : forall file, NoDup (map fst its) -> (forall n, In n (map fst its) -> ~ In n (map fst file)) ->
  (forall it, In it its -> snd it = false -> exists v, In (fst it, v) checkpoint) -> foldM store its file = Ok (file ++ flat_map found its)%list.
Proof.
  induction its as [|it its IH]; intros file Nd Hf Hr; cbn [foldM flat_map]; [rewrite app_nil_r; reflexivity|]. cbn [map] in Nd. inversion Nd as [|? ? Nk Nd']; subst.
  unfold store at 1, found at 1. destruct (lookup_total checkpoint (fst it)) as [E|(v & E & _)]; rewrite E.
  - destruct (snd it) eqn:Eo.
    + cbn [bind app]. apply IH; [exact Nd'|intros n Hn; apply Hf; right; exact Hn|intros x Ix; apply Hr; right; exact Ix].
    + exfalso. destruct (Hr it (or_introl eq_refl) Eo) as (v & I). apply (lookup_ok _ _ _ Nck) in I. congruence.
  - rewrite create_ok by (apply Hf; left; reflexivity). cbn [bind]. rewrite IH.
    + rewrite <- app_assoc. reflexivity.
    + exact Nd'.
    + intros n Hn. rewrite map_app, in_app_iff. cbn [map fst In]. intros [I|[<-|[]]]; [exact (Hf n (or_intror Hn) I)|exact (Nk Hn)].
    + intros x Ix. apply Hr. right. exact Ix.
Qed.
Lemma store_missing its n : In (n, false) its -> (forall v, ~ In (n, v) checkpoint) -> forall file, (NoDup (map fst its)) -> (forall m, In m (map fst its) -> ~ In m (map fst file)) -> foldM store its file = Err KeyError.
Proof.
  intros I Hm. induction its as [|it its IH]; [destruct I|]. intros file Nd Hf. cbn [foldM]. cbn [map] in Nd. inversion Nd as [|? ? Nk Nd']; subst. unfold store at 1. destruct (lookup_total checkpoint (fst it)) as [E|(v & E & Iv)]; rewrite E.
  - destruct (snd it) eqn:Eo; [|reflexivity]. destruct I as [->|I]; [discriminate Eo|]. cbn [bind]. apply (IH I); [exact Nd'|intros m H; apply Hf; right; exact H].
  - destruct I as [->|I]; [exfalso; exact (Hm v Iv)|]. rewrite create_ok by (apply Hf; left; reflexivity). cbn [bind]. apply (IH I); [exact Nd'|].
    intros m Hn. rewrite map_app, in_app_iff. cbn [map fst In]. intros [J|[<-|[]]]; [exact (Hf m (or_intror Hn) J)|exact (Nk Hn)].
Qed.

Lemma in_items net nets layers it : In it (items net nets layers) <-> exists i j, (i < nets)%nat /\ (j < layers)%nat /\ (it = (name_of net Weight i j, false) \/ it = (name_of net Bias i j, false) \/ it = (name_of net Resnet i j, true)).
Proof.
  unfold items. rewrite in_flat_map. split.
  - intros (i & Ii & H). apply in_flat_map in H. destruct H as (j & Ij & H). apply in_seq in Ii, Ij. exists i, j. split; [lia|]. split; [lia|]. cbn in H. intuition congruence.
  - intros (i & j & Hi & Hj & H). exists i. split; [apply in_seq; lia|]. apply in_flat_map. exists j. split; [apply in_seq; lia|]. cbn. intuition congruence.
Qed.
Lemma nodup_flat {A B} (f : A -> list B) (l : list A) : NoDup l -> (forall a, In a l -> NoDup (f a)) -> (forall a a' b, In b (f a) -> In b (f a') -> a = a') -> NoDup (flat_map f l).
Proof.
  intros Nd H1 H2. induction Nd as [|a l Na Nd IH]; [constructor|]. cbn [flat_map]. assert (Ha := H1 a (or_introl eq_refl)). assert (Hl := IH (fun x Hx => H1 x (or_intror Hx))).
  assert (Hd : forall b, In b (f a) -> ~ In b (flat_map f l)). { intros b Ib Ic. apply in_flat_map in Ic. destruct Ic as (a' & Ia & Ib'). apply Na. rewrite (H2 a a' b Ib Ib'). exact Ia. }
  clear - Ha Hl Hd. induction Ha as [|b r Nb Nr IH]; [exact Hl|]. cbn [app]. constructor; [rewrite in_app_iff; intros [I|I]; [exact (Nb I)|exact (Hd b (or_introl eq_refl) I)]|]. apply IH. intros x Hx. apply Hd. right. exact Hx.
Qed.
Lemma map_flat {A B C} (g : B -> C) (f : A -> list B) l : map g (flat_map f l) = flat_map (fun a => map g (f a)) l.
Proof. induction l as [|a l IH]; [reflexivity|]. cbn [flat_map]. rewrite map_app, IH. reflexivity. Qed.
Lemma items_nodup net nets layers : net_ok net -> NoDup (map fst (items net nets layers)).
Proof.
  intros Hn. unfold items. rewrite map_flat. apply nodup_flat; [apply seq_NoDup| |].
  - intros i _. rewrite map_flat. apply nodup_flat; [apply seq_NoDup| |].
    + intros j _. cbn [map fst]. repeat constructor; cbn [In]; intros H; repeat (destruct H as [H|H]); try contradiction; apply name_inj in H; try exact Hn; destruct H as (_ & H & _); discriminate H.
    + intros j j' b I I'. cbn [map fst In] in I, I'. destruct I as [<-|[<-|[<-|[]]]]; destruct I' as [E|[E|[E|[]]]]; apply name_inj in E; try exact Hn; symmetry; apply E.
  - intros i i' b I I'. rewrite map_flat in I, I'. apply in_flat_map in I, I'. destruct I as (j & _ & I), I' as (j' & _ & I'). cbn [map fst In] in I, I'.
    destruct I as [<-|[<-|[<-|[]]]]; destruct I' as [E|[E|[E|[]]]]; apply name_inj in E; try exact Hn; symmetry; apply E.
Qed.
Lemma items_name net nets layers n : In n (map fst (items net nets layers)) <-> exists p i j, (i < nets)%nat /\ (j < layers)%nat /\ n = name_of net p i j.
Proof.
  rewrite in_map_iff. split.
  - intros (it & <- & I). apply in_items in I. destruct I as (i & j & Hi & Hj & [->|[->| ->]]); cbn [fst]; [exists Weight|exists Bias|exists Resnet]; exists i, j; auto.
  - intros (p & i & j & Hi & Hj & ->). exists (name_of net p i j, match p with Resnet => true | _ => false end). split; [reflexivity|]. apply in_items. exists i, j. destruct p; auto.
Qed.
Lemma in_found its n d : In (n, d) (flat_map found its) <-> In n (map fst its) /\ exists v, In (n, v) checkpoint /\ d = Tensor v.
Proof.
  rewrite in_flat_map. split.
  - intros (it & Ii & H). unfold found in H. destruct (lookup checkpoint (fst it)) as [v|] eqn:E; [|destruct H]. apply (lookup_ok _ _ _ Nck) in E. destruct H as [H|[]]. assert (n = fst it) by congruence. subst n. split; [apply in_map; exact Ii|]. exists v. split; [exact E|congruence].
  - intros (Ii & v & I & ->). apply in_map_iff in Ii. destruct Ii as (it & <- & Ii). exists it. split; [exact Ii|]. unfold found. apply (lookup_ok _ _ _ Nck) in I. rewrite I. left. reflexivity.
Qed.
Lemma found_names its n : In n (map fst (flat_map found its)) -> In n (map fst its).
Proof. intros H. apply in_map_iff in H. destruct H as ([m d] & <- & H). apply in_found in H. apply H. Qed.
Lemma found_nodup its : NoDup (map fst its) -> NoDup (map fst (flat_map found its)).
Proof.
  induction its as [|it its IH]; intros Nd; [constructor|]. cbn [map] in Nd. inversion Nd as [|? ? Nk Nd']; subst. cbn [flat_map]. rewrite map_app. unfold found at 1. destruct (lookup checkpoint (fst it)); cbn [map app fst]; [|exact (IH Nd')].
  constructor; [|exact (IH Nd')]. intros H. apply Nk. apply found_names. exact H.
Qed.
Lemma nets_saved nE nF layers : 
  (forall net i j, net = "embedding_net" /\ (i < nE)%nat \/ net = "fitting_net" /\ (i < nF)%nat -> (j < layers)%nat -> (exists v, In (name_of net Weight i j, v) checkpoint) /\ (exists v, In (name_of net Bias i j, v) checkpoint)) ->
  bind (save_net checkpoint "embedding_net" nE layers []) (save_net checkpoint "fitting_net" nF layers) =
  Ok (flat_map found (items "embedding_net" nE layers) ++ flat_map found (items "fitting_net" nF layers))%list.
Proof.
  intros H. rewrite net_store, store_all.
  - cbn [bind app]. rewrite net_store, store_all; [reflexivity| | |].
    + apply items_nodup. right. reflexivity.
    + intros n Hn Hf. apply found_names in Hf. apply items_name in Hn, Hf. destruct Hn as (p & i & j & _ & _ & ->), Hf as (p' & i' & j' & _ & _ & E). apply name_inj in E; [|right; reflexivity|left; reflexivity]. destruct E as (E & _). discriminate E.
    + intros it I Eo. apply in_items in I. destruct I as (i & j & Hi & Hj & I). destruct (H "fitting_net" i j) as [H1 H2]; [right; auto|exact Hj|]. destruct I as [->|[->| ->]]; cbn [fst snd] in *; [exact H1|exact H2|discriminate].
  - apply items_nodup. left. reflexivity.
  - intros n _ [].
  - intros it I Eo. apply in_items in I. destruct I as (i & j & Hi & Hj & I). destruct (H "embedding_net" i j) as [H1 H2]; [left; auto|exact Hj|]. destruct I as [->|[->| ->]]; cbn [fst snd] in *; [exact H1|exact H2|discriminate].
Qed.

Lemma file_reads (file : list (string * dataset V)) n d : NoDup (map fst file) -> (get_hdf5_dict file n = Ok d <-> In (n, d) file).
Proof. intros Nd. unfold get_hdf5_dict. rewrite lookup_ok by (rewrite map_rev; apply NoDup_rev; exact Nd). symmetry. apply in_rev. Qed.

Lemma last_snoc (v : V) pre s : shape v = app pre [s] -> last_dim shape v = Ok s.
Proof. intros E. unfold last_dim. rewrite E, rev_app_distr. reflexivity. Qed.
Lemma sizes_ok net n input sizes : networks shape checkpoint net (S n) input sizes -> mapM (fun j => bind (lookup checkpoint (key net "weights.weight" 0 j)) (last_dim shape)) (seq 0 (List.length sizes)) = Ok sizes.
Proof.
  intros H. assert (G : forall l k, (forall j s, nth_error l j = Some s -> bind (lookup checkpoint (key net "weights.weight" 0 (k + j))) (last_dim shape) = Ok s) -> mapM (fun j => bind (lookup checkpoint (key net "weights.weight" 0 j)) (last_dim shape)) (seq k (List.length l)) = Ok l).
  { clear. induction l as [|s l IH]; intros k H; [reflexivity|]. cbn [List.length seq mapM]. assert (H0 := H 0 s eq_refl). rewrite Nat.add_0_r in H0. rewrite H0. cbn [bind]. rewrite IH; [reflexivity|]. intros j t Hj. replace (S k + j)%nat with (k + S j)%nat by lia. apply H. exact Hj. }
  apply (G sizes 0). intros j s Hj. destruct (H 0 j s ltac:(lia) Hj) as [(w & Iw & Ew) _]. apply (lookup_ok _ _ _ Nck) in Iw. change (key net "weights.weight" 0 (0 + j)) with (name_of net Weight 0 j). rewrite Iw. cbn [bind]. apply (last_snoc w [nth j (input :: sizes) 0%nat] s). exact Ew.
Qed.

Lemma saved nE nF input es fs m1 m2 : (0 < nE)%nat -> (0 < nF)%nat -> (0 < m1)%nat -> (List.length fs <= List.length es)%nat -> fs <> [] -> (exists front, es = app front [m1]) ->
  networks shape checkpoint "embedding_net" nE input es -> networks shape checkpoint "fitting_net" nF (m1 * m2) fs ->
  exists file, save_hdf5_file shape checkpoint nE (List.length es) nF (List.length fs) = Ok file /\ NoDup (map fst file) /\
  forall name d, get_hdf5_dict file name = Ok d <->
    (exists net p i j v, (net = "embedding_net" /\ (i < nE)%nat \/ net = "fitting_net" /\ (i < nF)%nat) /\ (j < List.length fs)%nat /\ name = name_of net p i j /\ has checkpoint name v /\ d = Tensor v) \/
    name = "M1" /\ d = Number m1 \/ name = "M2" /\ d = Number m2 \/ name = "embedding_sizes" /\ d = Sizes es \/ name = "fitting_sizes" /\ d = Sizes fs.
Proof.
  intros HE HF Hm Hl Hfs (front & Ees) NE NF. unfold save_hdf5_file.
  assert (Req : forall net i j, net = "embedding_net" /\ (i < nE)%nat \/ net = "fitting_net" /\ (i < nF)%nat -> (j < List.length fs)%nat -> (exists v, In (name_of net Weight i j, v) checkpoint) /\ (exists v, In (name_of net Bias i j, v) checkpoint)).
  { intros net i j [[-> Hi]|[-> Hi]] Hj.
    - destruct (nth_error es j) as [s|] eqn:Ej; [|apply nth_error_None in Ej; lia]. destruct (NE i j s Hi Ej) as [(w & Iw & _) (b & pre & Ib & _)]. split; [exists w|exists b]; assumption.
    - destruct (nth_error fs j) as [s|] eqn:Ej; [|apply nth_error_None in Ej; lia]. destruct (NF i j s Hi Ej) as [(w & Iw & _) (b & pre & Ib & _)]. split; [exists w|exists b]; assumption. }
  assert (Sv := nets_saved nE nF (List.length fs) Req). destruct (save_net checkpoint "embedding_net" nE (List.length fs) []) as [f0|]; [|discriminate]. cbn [bind] in Sv |- *. rewrite Sv. clear Sv. cbn [bind]. set (f1 := (flat_map found _ ++ flat_map found _)%list).
  destruct nE as [|nE]; [lia|]. destruct nF as [|nF]; [lia|].
  assert (Le : List.length es = S (List.length front)) by (rewrite Ees, app_length; cbn; lia). assert (El : nth_error es (List.length front) = Some m1) by (rewrite Ees, nth_error_app2, Nat.sub_diag by lia; reflexivity).
  rewrite Le. cbn [pred_str]. destruct (NE nE (List.length front) m1 ltac:(lia) El) as [_ (b & pre & Ib & Eb)].
  change ("embedding_net." ++ dec nE ++ ".bias.bias" ++ dec (List.length front)) with (name_of "embedding_net" Bias nE (List.length front)). apply (lookup_ok _ _ _ Nck) in Ib. rewrite Ib. cbn [bind]. rewrite (last_snoc b pre m1 Eb). cbn [bind].
  assert (Efs : exists fz fs', fs = fz :: fs') by (destruct fs as [|fz fs']; [contradiction|exists fz, fs'; reflexivity]). destruct Efs as (fz & fs' & Efs). destruct (NF 0%nat 0%nat fz ltac:(lia) ltac:(rewrite Efs; reflexivity)) as [(w & Iw & Ew) _]. apply (lookup_ok _ _ _ Nck) in Iw. change (key "fitting_net" "weights.weight" 0 0) with (name_of "fitting_net" Weight 0 0). rewrite Iw. cbn [bind].
  unfold first_dim. rewrite Ew. cbn [nth bind]. replace (m1 =? 0)%nat with false by (symmetry; apply Nat.eqb_neq; lia). cbn [bind]. rewrite (Nat.mul_comm m1 m2), Nat.div_mul by lia.
  assert (Nf1 : forall n, In n (map fst f1) -> exists net p i j, net_ok net /\ n = name_of net p i j).
  { intros n Hn. unfold f1 in Hn. rewrite map_app, in_app_iff in Hn. destruct Hn as [Hn|Hn]; apply found_names, items_name in Hn; destruct Hn as (p & i & j & _ & _ & ->); [exists "embedding_net"|exists "fitting_net"]; exists p, i, j; split; try reflexivity; [left|right]; reflexivity. }
  assert (Fr : forall x, In x ["M1"; "M2"; "embedding_sizes"; "fitting_sizes"] -> ~ In x (map fst f1)).
  { intros x Hx Hn. apply Nf1 in Hn. destruct Hn as (net & p & i & j & Ho & E). symmetry in E. exact (name_other net p i j x Ho Hx E). }
  rewrite create_ok by (apply Fr; cbn; auto). cbn [bind]. rewrite create_ok by (rewrite map_app, in_app_iff; intros [I|[I|[]]]; [revert I; apply Fr; cbn; auto|discriminate I]). cbn [bind].
  assert (Se := sizes_ok "embedding_net" nE input es NE). rewrite Le in Se. rewrite Se. cbn [bind].
  rewrite create_ok by (rewrite !map_app, !in_app_iff; intros [[I|[I|[]]]|[I|[]]]; [revert I; apply Fr; cbn; auto|discriminate I|discriminate I]). cbn [bind].
  assert (Sf := sizes_ok "fitting_net" nF (m1 * m2) fs NF). rewrite Sf. cbn [bind].
  rewrite create_ok by (rewrite !map_app, !in_app_iff; intros [[[I|[I|[]]]|[I|[]]]|[I|[]]]; [revert I; apply Fr; cbn; auto|discriminate I|discriminate I|discriminate I]).
  rewrite <- !app_assoc. cbn [app]. eexists. split; [reflexivity|].
  assert (Nd1 : NoDup (map fst f1)).
  { unfold f1. rewrite map_app. assert (A1 := found_nodup _ (items_nodup "embedding_net" (S nE) (List.length fs) (or_introl eq_refl))). assert (A2 := found_nodup _ (items_nodup "fitting_net" (S nF) (List.length fs) (or_intror eq_refl))).
    assert (Dj : forall n, In n (map fst (flat_map found (items "embedding_net" (S nE) (List.length fs)))) -> ~ In n (map fst (flat_map found (items "fitting_net" (S nF) (List.length fs))))).
    { intros n H1 H2. apply found_names, items_name in H1, H2. destruct H1 as (p & i & j & _ & _ & ->), H2 as (p' & i' & j' & _ & _ & E). apply name_inj in E; [|left; reflexivity|right; reflexivity]. destruct E as (E & _). discriminate E. }
    revert A1 Dj. generalize (map fst (flat_map found (items "embedding_net" (S nE) (List.length fs)))). intros l A1 Dj. induction A1 as [|x l Nx Nl IH]; [exact A2|]. cbn [app]. constructor; [rewrite in_app_iff; intros [I|I]; [exact (Nx I)|exact (Dj x (or_introl eq_refl) I)]|]. apply IH. intros n Hn. apply Dj. right. exact Hn. }
  assert (Nd : NoDup (map fst (f1 ++ [("M1", Number m1); ("M2", Number m2); ("embedding_sizes", Sizes es); ("fitting_sizes", Sizes fs)]))).
  { rewrite map_app. cbn [map fst]. revert Fr Nd1. generalize (map fst f1). intros l Fr Nl. induction Nl as [|x l Nx Nl IH]; [repeat constructor; cbn; intuition discriminate|]. cbn [app]. constructor.
    - rewrite in_app_iff. intros [I|I]; [exact (Nx I)|]. apply (Fr x I). left. reflexivity.
    - apply IH. intros y Hy I. apply (Fr y Hy). right. exact I. }
  split; [exact Nd|]. intros name d. rewrite (file_reads _ _ _ Nd), in_app_iff. unfold f1. rewrite in_app_iff, !in_found, !items_name. cbn [In]. unfold has. split.
  - intros [[((p & i & j & Hi & Hj & ->) & v & Iv & ->)|((p & i & j & Hi & Hj & ->) & v & Iv & ->)]|[E|[E|[E|[E|[]]]]]].
    + left. exists "embedding_net", p, i, j, v. auto 10.
    + left. exists "fitting_net", p, i, j, v. auto 10.
    + right. left. split; congruence.
    + right. right. left. split; congruence.
    + right. right. right. left. split; congruence.
    + right. right. right. right. split; congruence.
  - intros [(net & p & i & j & v & [[-> Hi]|[-> Hi]] & Hj & -> & Iv & ->)|[[-> ->]|[[-> ->]|[[-> ->]|[-> ->]]]]].
    + left. left. split; [exists p, i, j; auto|exists v; auto].
    + left. right. split; [exists p, i, j; auto|exists v; auto].
    + right. left. reflexivity.
    + right. right. left. reflexivity.
    + right. right. right. left. reflexivity.
    + right. right. right. right. left. reflexivity.
Qed.

(** A missing weight or bias. *)
Lemma missing nE nEL nF nFL net p i j : net = "embedding_net" /\ (i < nE)%nat \/ net = "fitting_net" /\ (i < nF)%nat -> (j < nFL)%nat -> p <> Resnet ->
  (forall v, ~ has checkpoint (name_of net p i j) v) -> save_hdf5_file shape checkpoint nE nEL nF nFL = Err KeyError.
Proof.
  intros Hn Hj Hp Hm. unfold save_hdf5_file. assert (Ie : In (name_of net p i j, false) (items net (if String.eqb net "embedding_net" then nE else nF) nFL)).
  { apply in_items. exists i, j. destruct Hn as [[-> Hi]|[-> Hi]]; (split; [exact Hi|]; split; [exact Hj|]); destruct p; auto; contradiction. }
  rewrite net_store. destruct Hn as [[-> Hi]|[-> Hi]]; cbn [String.eqb Ascii.eqb Bool.eqb] in Ie.
  - rewrite (store_missing _ _ Ie Hm []); [reflexivity|apply items_nodup; left; reflexivity|intros m _ []].
  - assert (Fe : foldM store (items "embedding_net" nE nFL) [] = Err KeyError \/ foldM store (items "embedding_net" nE nFL) [] = Ok (flat_map found (items "embedding_net" nE nFL))).
    { assert (G : forall its file, NoDup (map fst its) -> (forall n, In n (map fst its) -> ~ In n (map fst file)) -> foldM store its file = Err KeyError \/ foldM store its file = Ok (file ++ flat_map found its)%list).
      { induction its as [|it its IH]; intros file Nd Hf; [right; cbn; rewrite app_nil_r; reflexivity|]. cbn [map] in Nd. inversion Nd as [|? ? Nk Nd']; subst. cbn [foldM flat_map]. unfold store at 1 3, found at 1. destruct (lookup_total checkpoint (fst it)) as [E|(v & E & _)]; rewrite E.
        - destruct (snd it); [|left; reflexivity]. cbn [bind app]. apply IH; [exact Nd'|intros n Hn; apply Hf; right; exact Hn].
        - rewrite create_ok by (apply Hf; left; reflexivity). cbn [bind]. destruct (IH (file ++ [(fst it, Tensor v)])%list Nd') as [Q|Q]; [|left; exact Q|right; rewrite Q, <- app_assoc; reflexivity].
          intros n Hn. rewrite map_app, in_app_iff. cbn [map fst In]. intros [I|[<-|[]]]; [exact (Hf n (or_intror Hn) I)|exact (Nk Hn)]. }
      apply (G _ [] (items_nodup _ _ _ (or_introl eq_refl))). intros n _ []. }
    destruct Fe as [-> | ->]; [reflexivity|]. cbn [bind]. rewrite net_store, (store_missing _ _ Ie Hm); [reflexivity|apply items_nodup; right; reflexivity|].
    intros n H1 H2. apply found_names in H2. apply items_name in H1, H2. destruct H1 as (p1 & i1 & j1 & _ & _ & ->), H2 as (p' & i' & j' & _ & _ & E). apply name_inj in E; [|right; reflexivity|left; reflexivity]. destruct E as (E & _). discriminate E.
Qed.
End Save.
