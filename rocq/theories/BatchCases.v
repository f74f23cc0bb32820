(** Structures for the witnesses: two atoms at distance one, with two slots and with one. *)
From Verif Require Import SlotSpec SlotProofs BatchModel BatchSpec BatchProofs.
Local Open Scope nat_scope.
Local Open Scope list_scope.

Definition roomy : image := {| im_ilist := [0; 1]; im_numneigh := [1; 1]; im_firstneigh := [1; 0; 0; 0];
  im_coords := [1; 0; 0; 0; 0; 0; -1; 0; 0; 0; 0; 0]%R; im_types := [0; 0]; im_umax := [2] |}.
Definition tight : image := {| im_ilist := [0; 1]; im_numneigh := [1; 1]; im_firstneigh := [1; 0];
  im_coords := [1; 0; 0; -1; 0; 0]%R; im_types := [0; 0]; im_umax := [1] |}.

(** The runs with the functions of a neighbour left open. *)
Definition row (n : nat) (f : nat -> vec -> R) (d : vec) : list R := map (fun k => f k d) (seq 0 n).
Definition filled (n : nat) (f : nat -> vec -> R) (i : image) : result (list R) :=
  fill 0%R n (fun ii jj _ => bind (env_position (im_coords i) (width (im_umax i)) ii jj) (fun d => Ok (row n f d)))
    2 (im_numneigh i) (im_firstneigh i) (im_types i) (im_umax i).
Lemma tight4 f : filled 4 f tight = Ok (row 4 f (1, 0, 0)%R ++ row 4 f (-1, 0, 0)%R).
Proof. reflexivity. Qed.
Lemma tight12 f : filled 12 f tight = Ok (row 12 f (1, 0, 0)%R ++ row 12 f (-1, 0, 0)%R).
Proof. reflexivity. Qed.
Lemma roomy4 f : filled 4 f roomy = Ok (row 4 f (1, 0, 0)%R ++ repeat 0%R 4 ++ row 4 f (-1, 0, 0)%R ++ repeat 0%R 4).
Proof. reflexivity. Qed.
Lemma roomy12 f : filled 12 f roomy = Ok (row 12 f (1, 0, 0)%R ++ repeat 0%R 12 ++ row 12 f (-1, 0, 0)%R ++ repeat 0%R 12).
Proof. reflexivity. Qed.
Definition tfun (rc rs : R) (k : nat) (d : vec) : R := nth k (tilde_row rc rs d) 0%R.
Definition dfun (rc rs : R) (k : nat) (d : vec) : R := nth k (concat (env_deriv rc rs d)) 0%R.
Lemma run_filled rc rs i : env_run 2 rc rs i =
  bind (filled 4 (tfun rc rs) i) (fun v => bind (filled 12 (dfun rc rs) i) (fun dv => Ok (v, dv))).
Proof. reflexivity. Qed.
Lemma tight_run rc rs : env_run 2 rc rs tight =
  Ok (row 4 (tfun rc rs) (1, 0, 0)%R ++ row 4 (tfun rc rs) (-1, 0, 0)%R,
      row 12 (dfun rc rs) (1, 0, 0)%R ++ row 12 (dfun rc rs) (-1, 0, 0)%R).
Proof. rewrite run_filled, tight4. cbn [bind]. rewrite tight12. reflexivity. Qed.
Lemma roomy_run rc rs : env_run 2 rc rs roomy =
  Ok (row 4 (tfun rc rs) (1, 0, 0)%R ++ repeat 0%R 4 ++ row 4 (tfun rc rs) (-1, 0, 0)%R ++ repeat 0%R 4,
      row 12 (dfun rc rs) (1, 0, 0)%R ++ repeat 0%R 12 ++ row 12 (dfun rc rs) (-1, 0, 0)%R ++ repeat 0%R 12).
Proof. rewrite run_filled, roomy4. cbn [bind]. rewrite roomy12. reflexivity. Qed.
Lemma unit_row : tfun 3 2 0 (-1, 0, 0)%R = 1%R.
Proof.
  unfold tfun.  cbn [tilde_row nth]. replace (vnorm (-1, 0, 0)%R) with 1%R.
  2:{ unfold vnorm. cbn [vx vy vz fst snd]. replace ((-1) ^ 2 + 0 ^ 2 + 0 ^ 2)%R with (1 * 1)%R by ring. rewrite sqrt_square; lra. }
  unfold smooth_func. destruct (Rlt_dec 1 2); [|lra]. destruct (Req_EM_T 1 0); lra.
Qed.

Lemma narrow_shifted : exists v dv a da,
  env_forward 2 3 2 [roomy; tight] = Ok (v, dv) /\ env_run 2 3 2 tight = Ok (a, da) /\
  group 4 (slot_of (im_umax tight) 1 0 0) a <> repeat 0%R 4 /\
  group 4 (slot_of (im_umax roomy) 1 0 0) (part_of (2 * 2 * 4) 1 v) = repeat 0%R 4 /\
  group 4 (slot_of (im_umax roomy) 0 0 1) (part_of (2 * 2 * 4) 1 v) = group 4 (slot_of (im_umax tight) 1 0 0) a.
Proof.
  pose proof (roomy_run 3 2) as Er. pose proof (tight_run 3 2) as Ea. generalize unit_row. revert Er Ea. generalize (tfun 3 2) (dfun 3 2). intros f h Er Ea Hu.
  destruct (env_batch 2 3 2 roomy [tight]) as (v & dv & E & _ & _ & H).
  { intros i [<-|[<-|[]]]; apply Nat.leb_le; reflexivity. }
  { intros i [<-|[<-|[]]]; eauto. }
  destruct (H 1 tight _ _ eq_refl Ea) as [Hv _]. change (2 * reserved (im_umax roomy) * 4) with (2 * 2 * 4) in Hv.
  exists v, dv. eexists. eexists. split; [exact E|]. split; [exact Ea|]. split; [|split].
  - intros B. apply (f_equal (fun l => nth 0 l 0%R)) in B.
    change (f 0 (-1, 0, 0)%R = 0%R) in B. rewrite Hu in B. lra.
  - rewrite Hv. reflexivity.
  - rewrite Hv. reflexivity.
Qed.

Lemma wide_last_case : env_forward 2 3 2 [tight; roomy] = Err IndexError.
Proof.
  pose proof (roomy_run 3 2) as Er. pose proof (tight_run 3 2) as Ea. generalize unit_row. revert Er Ea. generalize (tfun 3 2) (dfun 3 2). intros f h Er Ea Hu.
  apply (env_last_wide 2 3 2 tight [] roomy); [lia|apply Nat.ltb_lt; reflexivity|].
  intros i [<-|[<-|[]]]; eauto.
Qed.
Lemma equal_case : exists v dv, env_forward 2 3 2 [tight; tight] = Ok (v, dv) /\ length v = 16 /\ length dv = 48.
Proof.
  pose proof (tight_run 3 2) as Ea. destruct (env_batch_equal 2 3 2 tight [tight]) as (v & dv & E & Lv & Ld & _).
  { intros i [<-|[<-|[]]]; reflexivity. }
  { intros i [<-|[<-|[]]]; eauto. }
  exists v, dv. split; [exact E|]. split; [rewrite Lv|rewrite Ld]; reflexivity.
Qed.
(** A structure in the middle with more slots spills into the next part and is cut. *)
Lemma wide_middle : exists v dv a da,
  env_forward 2 3 2 [tight; roomy; tight] = Ok (v, dv) /\ env_run 2 3 2 roomy = Ok (a, da) /\
  part_of (2 * 1 * 4) 1 v = firstn 8 a /\ length a = 16.
Proof.
  pose proof (roomy_run 3 2) as Er. pose proof (tight_run 3 2) as Ea. revert Er Ea.
  unfold env_forward. change (get [tight; roomy; tight] 0) with (Ok tight). cbn [bind map].
  generalize (tfun 3 2) (dfun 3 2). intros f h Er Ea. rewrite Er, Ea. cbn [bind fst snd]. clear Er Ea.
  generalize ((1, 0, 0)%R : vec) ((-1, 0, 0)%R : vec) 0%R. intros p q o.
  match goal with |- exists v dv a da, ?X = _ /\ _ => let x := eval vm_compute in X in
    assert (X = x) as -> by (vm_compute; reflexivity) end.
  do 4 eexists. split; [reflexivity|]. split; [reflexivity|]. split; vm_compute; reflexivity.
Qed.
Lemma prim_case : prim_forward 2 [1] [tight; tight] = Ok [1; 0; 1; 0]%Z.
Proof. reflexivity. Qed.
