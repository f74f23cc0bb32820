(** Vectors of three numbers: the properties. *)
From Coq Require Import Lra.
From Verif Require Import Vec3Model Vec3Spec Vec3Proofs.
Local Open Scope R_scope.

(** ** C91 *)
(** Exactly the indices 0, 1 and 2 can be read; every other one fails the assertion, reading and
    writing.  A component that was written is read back, and no other one changes.  Equal
    components make equal vectors. *)
Theorem C91_index v i : ((0 <= i < 3)%Z <-> exists x, at3 v i = Ok x) /\
  (~ (0 <= i < 3)%Z -> at3 v i = Err AssertionError /\ forall z, put3 v i z = Err AssertionError) /\
  (forall j z w, put3 v i z = Ok w -> at3 w j = if (i =? j)%Z then Ok z else at3 v j).
Proof. exact (conj (in_range i v) (conj (outside i v) (fun j z w => put_get i j v z w))). Qed.
Print Assumptions C91_index.

(** [==] holds exactly for equal vectors, [!=] exactly for different ones. *)
Theorem C91_comparison a b : (eq3 a b = true <-> forall i, at3 a i = at3 b i) /\ (neq3 a b = true <-> a <> b).
Proof. exact (conj (iff_trans (eq3_iff a b) (by_components a b)) (neq3_iff a b)). Qed.
Print Assumptions C91_comparison.

(** Sums and differences are taken component by component. *)
Theorem C91_componentwise a b : componentwise Rplus a b (add3 a b) /\ componentwise Rminus a b (sub3 a b).
Proof. exact (componentwise_all a b). Qed.
Print Assumptions C91_componentwise.

(** The laws of a vector space; the number may stand on either side. *)
Theorem C91_vector_space a b c r s :
  add3 a b = add3 b a /\ add3 a (add3 b c) = add3 (add3 a b) c /\ add3 a origin3 = a /\ add3 a (neg3 a) = origin3 /\ sub3 a b = add3 a (neg3 b) /\ pos3 a = a /\
  scale3 a 1 = a /\ scale3 (scale3 a r) s = scale3 a (r * s) /\ scale3 (add3 a b) r = add3 (scale3 a r) (scale3 b r) /\ scale3 a (r + s) = add3 (scale3 a r) (scale3 a s) /\
  lscale3 r a = scale3 a r.
Proof. exact (space a b c r s). Qed.
Print Assumptions C91_vector_space.

(** Division by a number other than 0 undoes multiplication, and is the only way to do so. *)
Theorem C91_division a r : r <> 0 -> scale3 (div3 a r) r = a /\ forall b, scale3 b r = a -> b = div3 a r.
Proof. exact (division a r). Qed.
Print Assumptions C91_division.

(** The dot product is symmetric, linear and positive except for the zero vector; its square is
    at most the product of the squared lengths, with equality exactly for vectors on one line. *)
Theorem C91_dot a b c r : dot3 a b = dot3 b a /\ dot3 (add3 a b) c = dot3 a c + dot3 b c /\ dot3 (scale3 a r) b = r * dot3 a b /\ 0 <= dot3 a a /\ (dot3 a a = 0 <-> a = origin3).
Proof. exact (inner a b c r). Qed.
Print Assumptions C91_dot.
Theorem C91_schwarz a b : dot3 a b * dot3 a b <= dot3 a a * dot3 b b /\ (dot3 a b * dot3 a b = dot3 a a * dot3 b b <-> on_a_line a b).
Proof. exact (schwarz a b). Qed.
Print Assumptions C91_schwarz.

(** The dot product with the cross product is the signed volume, and only the cross product has
    this property. *)
Theorem C91_volume a b : (forall x, dot3 x (cross3 a b) = det3 x a b) /\ forall c, (forall x, dot3 x c = det3 x a b) -> c = cross3 a b.
Proof. exact (conj (fun x => triple x a b) (cross_only a b)). Qed.
Print Assumptions C91_volume.

(** The laws of the cross product: sign, linearity, perpendicular to both, length, double products. *)
Theorem C91_cross a b c r :
  cross3 a b = neg3 (cross3 b a) /\ cross3 (add3 a b) c = add3 (cross3 a c) (cross3 b c) /\ cross3 (scale3 a r) b = scale3 (cross3 a b) r /\
  dot3 a (cross3 a b) = 0 /\ dot3 b (cross3 a b) = 0 /\
  dot3 (cross3 a b) (cross3 a b) = dot3 a a * dot3 b b - dot3 a b * dot3 a b /\
  cross3 a (cross3 b c) = sub3 (scale3 b (dot3 a c)) (scale3 c (dot3 a b)) /\
  add3 (add3 (cross3 a (cross3 b c)) (cross3 b (cross3 c a))) (cross3 c (cross3 a b)) = origin3.
Proof. exact (cross_laws a b c r). Qed.
Print Assumptions C91_cross.

(** It is zero exactly for vectors on one line, and the axes are right-handed. *)
Theorem C91_cross_zero a b : cross3 a b = origin3 <-> on_a_line a b.
Proof. exact (cross_zero a b). Qed.
Print Assumptions C91_cross_zero.
Theorem C91_right_handed : cross3 (V3 1 0 0) (V3 0 1 0) = V3 0 0 1 /\ cross3 (V3 0 1 0) (V3 0 0 1) = V3 1 0 0 /\ cross3 (V3 0 0 1) (V3 1 0 0) = V3 0 1 0.
Proof. exact right_handed. Qed.
Print Assumptions C91_right_handed.

(** [+=], [-=], [*=] and [/=] give their object the value of the plain operator and change no other
    object, also when the operand is the object itself. *)
Theorem C91_in_place s x y a b r : nth_error s x = Some a -> nth_error s y = Some b ->
  (exists s', add_to s x y = Ok s' /\ only_changed s s' x (add3 a b)) /\ (exists s', sub_from s x y = Ok s' /\ only_changed s s' x (sub3 a b)) /\
  (exists s', mul_by s x r = Ok s' /\ only_changed s s' x (scale3 a r)) /\ (exists s', div_by s x r = Ok s' /\ only_changed s s' x (div3 a r)).
Proof. exact (in_place s x y a b r). Qed.
Print Assumptions C91_in_place.

(** Printed are the three components between brackets, with commas. *)
Theorem C91_printed (text : R -> string) x y z : print3 text (V3 x y z) = ("[" ++ String.concat ", " (map text [x; y; z]) ++ "]")%string.
Proof. exact (printed text x y z). Qed.
Print Assumptions C91_printed.
Example C91_case_printed : print3 (fun _ => "7"%string) (V3 1 2 3) = "[7, 7, 7]"%string.
Proof. reflexivity. Qed.

(** Tests: concrete cases that meet the hypotheses. *)
Example C91_case_index : at3 (V3 4 5 6) 2 = Ok 6 /\ at3 (V3 4 5 6) 3 = Err AssertionError /\ at3 (V3 4 5 6) (-1) = Err AssertionError /\ put3 (V3 4 5 6) 1 7 = Ok (V3 4 7 6).
Proof. repeat split. Qed.
Example C91_case_itself : exists s', sub_from [V3 1 2 3; V3 4 5 6] 1 1 = Ok s' /\ only_changed [V3 1 2 3; V3 4 5 6] s' 1 origin3.
Proof.
  destruct (C91_in_place [V3 1 2 3; V3 4 5 6] 1 1 (V3 4 5 6) (V3 4 5 6) 1 eq_refl eq_refl) as (_ & (s' & E & O) & _). exists s'. split; [exact E|].
  replace origin3 with (sub3 (V3 4 5 6) (V3 4 5 6)); [exact O|]. unfold sub3, origin3. cbn [d0 d1 d2]. f_equal; ring.
Qed.
Example C91_case_division : div3 (V3 2 4 6) 2 = V3 1 2 3.
Proof. symmetry. apply (C91_division (V3 2 4 6) 2); [lra|]. unfold scale3. cbn [d0 d1 d2]. f_equal; lra. Qed.
Example C91_case_line : on_a_line (V3 1 2 3) (V3 2 4 6) /\ ~ on_a_line (V3 1 2 3) (V3 2 4 7).
Proof.
  split; [exists (V3 1 2 3), 1, 2; cbn [d0 d1 d2]; split; f_equal; lra|]. intros L. apply C91_cross_zero in L. unfold cross3, origin3 in L. cbn [d0 d1 d2] in L. injection L as E _ _. lra.
Qed.
