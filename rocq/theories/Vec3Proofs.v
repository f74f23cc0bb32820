(** Proofs about vectors of three numbers. *)
From Coq Require Import Lra Psatz Bool Lia.
From Verif Require Import Vec3Model Vec3Spec.
Local Open Scope R_scope.

Ltac v3 := repeat match goal with v : vec3 |- _ => destruct v end; unfold add3, sub3, neg3, pos3, scale3, lscale3, div3, cross3, dot3, origin3, det3 in *; cbn [d0 d1 d2] in *.
Ltac comps := v3; f_equal; try ring.

Lemma in_range i v : (0 <= i < 3)%Z <-> exists x, at3 v i = Ok x.
Proof.
  unfold at3. destruct (Z.leb_spec 0 i), (Z.ltb_spec i 3); cbn [andb]; split; intros Hx; try lia; try (eexists; reflexivity); destruct Hx; discriminate.
Qed.
Lemma outside i v : ~ (0 <= i < 3)%Z -> at3 v i = Err AssertionError /\ forall z, put3 v i z = Err AssertionError.
Proof. intros Hx. unfold at3, put3. destruct (Z.leb_spec 0 i), (Z.ltb_spec i 3); cbn [andb]; try lia; auto. Qed.
Lemma three i : (0 <= i < 3)%Z -> i = 0%Z \/ i = 1%Z \/ i = 2%Z.
Proof. lia. Qed.
Lemma put_get i j v z w : put3 v i z = Ok w -> at3 w j = if (i =? j)%Z then Ok z else at3 v j.
Proof.
  intros Hp. assert (0 <= i < 3)%Z as Hi. { unfold put3 in Hp. destruct (Z.leb_spec 0 i), (Z.ltb_spec i 3); cbn in Hp; try discriminate. lia. }
  destruct (three i Hi) as [-> | [-> | ->]]; injection Hp as <-; unfold at3;
    (destruct (Z.leb_spec 0 j), (Z.ltb_spec j 3); cbn [andb];
     [assert (j = 0 \/ j = 1 \/ j = 2)%Z as [-> | [-> | ->]] by lia; reflexivity|
      match goal with |- _ = if ?c then _ else _ => destruct c eqn:E; [apply Z.eqb_eq in E; lia|reflexivity] end..]).
Qed.
Lemma by_components a b : a = b <-> forall i, at3 a i = at3 b i.
Proof.
  split; [now intros ->|]. intros E. pose proof (E 0%Z) as E0. pose proof (E 1%Z) as E1. pose proof (E 2%Z) as E2. destruct a, b. cbn in *. congruence.
Qed.
Lemma same_iff x y : same x y = true <-> x = y.
Proof. unfold same. destruct (Req_EM_T x y); split; congruence. Qed.
Lemma eq3_iff a b : eq3 a b = true <-> a = b.
Proof. unfold eq3. rewrite !andb_true_iff, !same_iff. destruct a, b; cbn. split; [intros [[-> ->] ->]; reflexivity|intros E; injection E; auto]. Qed.
Lemma neq3_iff a b : neq3 a b = true <-> a <> b.
Proof.
  assert (neq3 a b = negb (eq3 a b)) as -> by (unfold neq3, eq3; now rewrite !negb_andb). rewrite negb_true_iff, <- not_true_iff_false, eq3_iff. reflexivity.
Qed.

Lemma componentwise_all a b : componentwise Rplus a b (add3 a b) /\ componentwise Rminus a b (sub3 a b).
Proof.
  split; intros i x y; unfold at3; destruct (_ && _)%bool; try discriminate; destruct (i =? 0)%Z, (i =? 1)%Z; intros E1 E2; injection E1 as <-; injection E2 as <-; reflexivity.
Qed.
Lemma space a b c r s :
  add3 a b = add3 b a /\ add3 a (add3 b c) = add3 (add3 a b) c /\ add3 a origin3 = a /\ add3 a (neg3 a) = origin3 /\ sub3 a b = add3 a (neg3 b) /\ pos3 a = a /\
  scale3 a 1 = a /\ scale3 (scale3 a r) s = scale3 a (r * s) /\ scale3 (add3 a b) r = add3 (scale3 a r) (scale3 b r) /\ scale3 a (r + s) = add3 (scale3 a r) (scale3 a s) /\
  lscale3 r a = scale3 a r.
Proof. repeat split; comps. Qed.
Lemma division a r : r <> 0 -> scale3 (div3 a r) r = a /\ forall b, scale3 b r = a -> b = div3 a r.
Proof.
  intros Hr. split; [v3; f_equal; now field|]. intros b <-. v3. f_equal; now field.
Qed.
Lemma inner a b c r : dot3 a b = dot3 b a /\ dot3 (add3 a b) c = dot3 a c + dot3 b c /\ dot3 (scale3 a r) b = r * dot3 a b /\ 0 <= dot3 a a /\ (dot3 a a = 0 <-> a = origin3).
Proof.
  split; [v3; ring|]. split; [v3; ring|]. split; [v3; ring|]. clear b c r. destruct a as [x y z]. unfold dot3, origin3. cbn [d0 d1 d2].
  pose proof (Rle_0_sqr x) as X. pose proof (Rle_0_sqr y) as Y. pose proof (Rle_0_sqr z) as Z0. unfold Rsqr in *. split; [lra|]. split; [|intros E; injection E as -> -> ->; ring].
  intros E. f_equal; apply Rsqr_0_uniq; unfold Rsqr; lra.
Qed.
Lemma triple a b c : dot3 a (cross3 b c) = det3 a b c.
Proof. v3. ring. Qed.
Lemma cross_only a b c : (forall x, dot3 x c = det3 x a b) -> c = cross3 a b.
Proof.
  intros Hx. pose proof (Hx (V3 1 0 0)) as H0. pose proof (Hx (V3 0 1 0)) as H1. pose proof (Hx (V3 0 0 1)) as H2. v3. f_equal; lra.
Qed.
Lemma cross_laws a b c r :
  cross3 a b = neg3 (cross3 b a) /\ cross3 (add3 a b) c = add3 (cross3 a c) (cross3 b c) /\ cross3 (scale3 a r) b = scale3 (cross3 a b) r /\
  dot3 a (cross3 a b) = 0 /\ dot3 b (cross3 a b) = 0 /\
  dot3 (cross3 a b) (cross3 a b) = dot3 a a * dot3 b b - dot3 a b * dot3 a b /\
  cross3 a (cross3 b c) = sub3 (scale3 b (dot3 a c)) (scale3 c (dot3 a b)) /\
  add3 (add3 (cross3 a (cross3 b c)) (cross3 b (cross3 c a))) (cross3 c (cross3 a b)) = origin3.
Proof. repeat split; solve [comps|v3; ring]. Qed.
Lemma quotient x y n m : n <> 0 -> x * n = y * m -> x = m / n * y.
Proof. intros Hn E. apply (Rmult_eq_reg_r n); [|exact Hn]. rewrite E. field. exact Hn. Qed.
Lemma cross_zero a b : cross3 a b = origin3 <-> on_a_line a b.
Proof.
  split.
  - intros E. destruct (Req_EM_T (dot3 a a) 0) as [Z0|N0].
    + exists b, 0, 1. assert (a = origin3) as -> by (apply (inner a a a 0); exact Z0). split; v3; f_equal; ring.
    + exists a, 1, (dot3 a b / dot3 a a). split; [v3; f_equal; ring|].
      assert (scale3 b (dot3 a a) = scale3 a (dot3 a b)) as Eb.
      { pose proof (cross_laws a a b 0) as (_ & _ & _ & _ & _ & _ & T & _). rewrite E in T. v3. injection T as T0 T1 T2. f_equal; lra. }
      destruct b as [b0 b1 b2]. unfold scale3 in Eb. cbn [d0 d1 d2] in Eb. injection Eb as E0 E1 E2. f_equal; now apply quotient.
  - intros (e & s & t & -> & ->). comps.
Qed.
Lemma right_handed : cross3 (V3 1 0 0) (V3 0 1 0) = V3 0 0 1 /\ cross3 (V3 0 1 0) (V3 0 0 1) = V3 1 0 0 /\ cross3 (V3 0 0 1) (V3 1 0 0) = V3 0 1 0.
Proof. repeat split; comps. Qed.
Lemma schwarz a b : dot3 a b * dot3 a b <= dot3 a a * dot3 b b /\ (dot3 a b * dot3 a b = dot3 a a * dot3 b b <-> on_a_line a b).
Proof.
  destruct (cross_laws a b a 0) as (_ & _ & _ & _ & _ & L & _). destruct (inner (cross3 a b) a a 0) as (_ & _ & _ & P & D).
  split; [lra|]. rewrite <- cross_zero, <- D, L. lra.
Qed.

(** ** Operators that change their object *)
Lemma get_Some (s : objects3) x v : nth_error s x = Some v -> get s x = Ok v.
Proof. unfold get. now intros ->. Qed.
Lemma put_object_only s x v w : nth_error s x = Some w -> only_changed s (put_object s x v) x v.
Proof.
  unfold only_changed. revert x. induction s as [|u s IH]; intros [|x] H; try discriminate; cbn [put_object length nth_error].
  - repeat split. intros [|y] Hy; [lia|reflexivity].
  - destruct (IH x H) as (L & E & F). repeat split; [now rewrite L|exact E|]. intros [|y] Hy; [reflexivity|]. apply F. lia.
Qed.
Lemma put_object_twice s x v w : put_object (put_object s x v) x w = put_object s x w.
Proof. revert x. induction s as [|u s IH]; intros [|x]; cbn [put_object]; auto. now rewrite IH. Qed.
Lemma put_object_at s x v w : nth_error s x = Some w -> get (put_object s x v) x = Ok v.
Proof. intros H. apply get_Some. apply (put_object_only s x v w H). Qed.
Lemma put_object_off s x y v w b : nth_error s x = Some w -> y <> x -> nth_error s y = Some b -> get (put_object s x v) y = Ok b.
Proof. intros H Hy Hb. apply get_Some. destruct (put_object_only s x v w H) as (_ & _ & F). now rewrite F. Qed.

Lemma each_with (g : R -> R -> R) s x y a b : nth_error s x = Some a -> nth_error s y = Some b ->
  each s (fun s i => change s x i (fun s old => bind (get s y) (fun b => bind (at3 b i) (fun z => Ok (g old z))))) =
  Ok (put_object s x (V3 (g (d0 a) (d0 b)) (g (d1 a) (d1 b)) (g (d2 a) (d2 b)))).
Proof.
  intros Ha Hb. unfold each, change. destruct (Nat.eq_dec y x) as [->|Hne].
  - rewrite Ha in Hb. injection Hb as <-.
    repeat (first [rewrite (get_Some _ _ _ Ha) | rewrite (put_object_at s x _ a Ha) | rewrite put_object_twice]; cbn -[put_object get]). reflexivity.
  - rewrite (get_Some _ _ _ Ha). cbn -[put_object get]. rewrite (get_Some _ _ _ Hb). cbn -[put_object get].
    rewrite (put_object_at s x _ a Ha). cbn -[put_object get]. rewrite (put_object_off s x y _ a b Ha Hne Hb). cbn -[put_object get]. rewrite put_object_twice.
    rewrite (put_object_at s x _ a Ha). cbn -[put_object get]. rewrite (put_object_off s x y _ a b Ha Hne Hb). cbn -[put_object get]. now rewrite put_object_twice.
Qed.
Lemma each_alone (g : R -> R) s x a : nth_error s x = Some a ->
  each s (fun s i => change s x i (fun _ old => Ok (g old))) = Ok (put_object s x (V3 (g (d0 a)) (g (d1 a)) (g (d2 a)))).
Proof.
  intros Ha. unfold each, change. rewrite (get_Some _ _ _ Ha). cbn -[put_object get].
  rewrite (put_object_at s x _ a Ha). cbn -[put_object get]. rewrite put_object_twice. rewrite (put_object_at s x _ a Ha). cbn -[put_object get]. now rewrite put_object_twice.
Qed.
Lemma in_place s x y a b r : nth_error s x = Some a -> nth_error s y = Some b ->
  (exists s', add_to s x y = Ok s' /\ only_changed s s' x (add3 a b)) /\ (exists s', sub_from s x y = Ok s' /\ only_changed s s' x (sub3 a b)) /\
  (exists s', mul_by s x r = Ok s' /\ only_changed s s' x (scale3 a r)) /\ (exists s', div_by s x r = Ok s' /\ only_changed s s' x (div3 a r)).
Proof.
  intros Ha Hb. repeat split.
  - eexists. split; [apply (each_with Rplus s x y a b Ha Hb)|]. now apply (put_object_only s x _ a).
  - eexists. split; [apply (each_with Rminus s x y a b Ha Hb)|]. now apply (put_object_only s x _ a).
  - eexists. split; [apply (each_alone (fun z => z * r) s x a Ha)|]. now apply (put_object_only s x _ a).
  - eexists. split; [apply (each_alone (fun z => z * (1 / r)) s x a Ha)|]. now apply (put_object_only s x _ a).
Qed.

Lemma printed (text : R -> string) x y z : print3 text (V3 x y z) = ("[" ++ String.concat ", " (map text [x; y; z]) ++ "]")%string.
Proof. unfold print3. cbn [d0 d1 d2 map String.concat].
  assert (A : forall a b c, (String.append (String.append a b) c = String.append a (String.append b c))%string) by (intros a b c; induction a as [|k a IH]; cbn; [reflexivity|now rewrite IH]).
  now rewrite !A. Qed.
