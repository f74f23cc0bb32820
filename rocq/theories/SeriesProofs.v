(** Proofs about the average bonds of a trajectory. *)
From Coq Require Import String Lia.
From Verif Require Import Arr Vec StructSpec NeighModel NeighSpec NeighReal AvgModel AvgSpec AvgBondProofs ElementModel CollModel SeriesModel SeriesSpec.
Open Scope nat_scope.

Section Series.
Variable argsort : list R -> list nat.
Hypothesis Hsort : sorts Rleb argsort.
Variables (rcut : R) (s0 s1 s2 : Z).
Hypothesis P0 : positive_odd s0.
Hypothesis P1 : positive_odd s1.
Hypothesis P2 : positive_odd s2.
Hypothesis Hr : (0 <= rcut)%R.

Lemma frame_value : forall a1 a2 f, proper rcut s0 s1 s2 f ->
  exists v, frame_avg_bond argsort rcut s0 s1 s2 a1 a2 f = Ok v /\ frame_avg_bond argsort rcut s0 s1 s2 a2 a1 f = Ok v /\ frame_average rcut a1 a2 f v.
Proof.
  intros a1 a2 f (Hd & Hs & Hc & Hn & R0 & R1 & R2).
  destruct (structure_avg (fr_a f) (fr_b f) (fr_c f) Hd argsort (fr_sites f) rcut s0 s1 s2 Hsort P0 P1 P2 Hs Hr Hc R0 R1 R2 Hn) as (table & Ht & H0).
  destruct (H0 a1 a2) as ((keys & Hk) & Hv & Hx). exists (average (map bond_length keys)).
  unfold frame_avg_bond. rewrite Ht. cbn [bind]. rewrite <- Hx. rewrite (Hv keys Hk).
  repeat split. exists keys. split; [exact Hk|reflexivity].
Qed.

Lemma frame_value_is : forall a1 a2 f v, proper rcut s0 s1 s2 f -> frame_average rcut a1 a2 f v -> frame_avg_bond argsort rcut s0 s1 s2 a1 a2 f = Ok v.
Proof.
  intros a1 a2 f v (Hd & Hs & Hc & Hn & R0 & R1 & R2) (keys & Hk & ->).
  destruct (structure_avg (fr_a f) (fr_b f) (fr_c f) Hd argsort (fr_sites f) rcut s0 s1 s2 Hsort P0 P1 P2 Hs Hr Hc R0 R1 R2 Hn) as (table & Ht & H0).
  destruct (H0 a1 a2) as (_ & Hv & _). unfold frame_avg_bond. rewrite Ht. cbn [bind]. exact (Hv keys Hk).
Qed.

Lemma series_values : forall a1 a2 frames, Forall (proper rcut s0 s1 s2) frames ->
  exists l, mapM (frame_avg_bond argsort rcut s0 s1 s2 a1 a2) frames = Ok l /\
    mapM (frame_avg_bond argsort rcut s0 s1 s2 a2 a1) frames = Ok l /\ Forall2 (frame_average rcut a1 a2) frames l.
Proof.
  intros a1 a2 frames H0. induction H0 as [|f fs Hf Hfs IH].
  - exists []. repeat split; constructor.
  - destruct IH as (l & E1 & E2 & F2). destruct (frame_value a1 a2 f Hf) as (v & V1 & V2 & Hv).
    exists (v :: l). cbn [mapM]. rewrite V1, V2, E1, E2. repeat split. constructor; assumption.
Qed.

Lemma series_ok : forall e1 e2 a1 a2 cpus frames m c, number_of e1 = Ok a1 -> number_of e2 = Ok a2 -> (3 <= cpus)%Z -> frames <> [] ->
  Forall (proper rcut s0 s1 s2) frames ->
  exists l, get_frames_avg_bond argsort cpus frames e1 e2 rcut s0 s1 s2 m c = Ok l /\
    get_frames_avg_bond argsort cpus frames e2 e1 rcut s0 s1 s2 m c = Ok l /\ Forall2 (frame_average rcut a1 a2) frames l.
Proof.
  intros e1 e2 a1 a2 cpus frames m c N1 N2 Hc Hn Hf. destruct (series_values a1 a2 frames Hf) as (l & E1 & E2 & F2).
  exists l. unfold get_frames_avg_bond, avg_bond_object. rewrite N1, N2. cbn [bind].
  destruct frames as [|f fs]; [contradiction|]. cbn [get nth_error bind fst snd]. unfold starmap.
  destruct (Z.ltb_spec (cpus - 2) 1); [lia|]. auto.
Qed.
End Series.

Lemma series_value_bounds : forall rcut a1 a2 f m, frame_average rcut a1 a2 f (Some m) -> (0 < m <= rcut)%R.
Proof. intros rcut a1 a2 f m (keys & Hk & E). exact (bond_avg_bounds _ _ _ _ _ _ _ _ m Hk (eq_sym E)). Qed.

Lemma mapM_fails : forall A B (f : A -> result B) l x e, In x l -> f x = Err e -> exists e', mapM f l = Err e'.
Proof.
  intros A B f l x e. induction l as [|y l IH]; intros Hin Hx; [contradiction|]. cbn [mapM].
  destruct (f y) as [b|e0] eqn:Ey; [|exists e0; reflexivity]. cbn [bind]. destruct Hin as [->|Hin]; [congruence|].
  destruct (IH Hin Hx) as (e' & E). rewrite E. exists e'. reflexivity.
Qed.

Lemma dget_or : forall K V (eqb : K -> K -> bool) (d : list (K * V)) k, (exists v, dget eqb d k = Ok v) \/ dget eqb d k = Err KeyError.
Proof.
  intros K V eqb d k. induction d as [|[k' v] d IH]; [right; reflexivity|]. cbn [dget]. destruct (eqb k k'); [left; exists v; reflexivity|exact IH].
Qed.

Lemma series_refused : forall argsort cpus frames e1 e2 rcut s0 s1 s2 m c,
  let r := get_frames_avg_bond argsort cpus frames e1 e2 rcut s0 s1 s2 m c in
  ((forall n, number_of e1 <> Ok n) \/ (forall n, number_of e2 <> Ok n) -> r = Err KeyError) /\
  (forall a1 a2, number_of e1 = Ok a1 -> number_of e2 = Ok a2 -> frames = [] -> r = Err IndexError) /\
  (forall a1 a2, number_of e1 = Ok a1 -> number_of e2 = Ok a2 -> frames <> [] -> (cpus <= 2)%Z -> r = Err ValueError) /\
  (forall a1 a2 f e, number_of e1 = Ok a1 -> number_of e2 = Ok a2 -> In f frames -> frame_avg_bond argsort rcut s0 s1 s2 a1 a2 f = Err e -> exists e', r = Err e').
Proof.
  intros argsort cpus frames e1 e2 rcut s0 s1 s2 m c r. subst r. unfold get_frames_avg_bond, avg_bond_object.
  assert (K2 : forall s, (exists n, number_of s = Ok n) \/ number_of s = Err KeyError) by (intros s; apply dget_or).
  assert (K : forall s, (forall n, number_of s <> Ok n) -> number_of s = Err KeyError).
  { intros s H0. destruct (K2 s) as [(n & E)|E]; [exfalso; exact (H0 n E)|exact E]. }
  split.
  - intros [H0|H0].
    + rewrite (K e1 H0). reflexivity.
    + destruct (K2 e1) as [(n & E)|E]; rewrite E; [|reflexivity]. cbn [bind]. rewrite (K e2 H0). reflexivity.
  - split; [|split].
    + intros a1 a2 N1 N2 ->. rewrite N1, N2. reflexivity.
    + intros a1 a2 N1 N2 Hn Hc. rewrite N1, N2. cbn [bind]. destruct frames; [contradiction|]. cbn [get nth_error bind]. unfold starmap.
      destruct (Z.ltb_spec (cpus - 2) 1); [reflexivity|lia].
    + intros a1 a2 f e N1 N2 Hin He. rewrite N1, N2. cbn [bind]. destruct frames as [|g gs]; [contradiction|]. cbn [get nth_error bind fst snd].
      unfold starmap. destruct (cpus - 2 <? 1)%Z; [exists ValueError; reflexivity|]. eapply mapM_fails; eassumption.
Qed.
