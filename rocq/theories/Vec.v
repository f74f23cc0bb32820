(** Vectors of R^3 and 3x3 determinants, shared by the geometric models.
    Real arithmetic stands for floating point throughout (no rounding). *)
From Verif Require Export Base.
From Coq Require Export Reals Lra.
Open Scope R_scope.

Definition vec : Type := (R * R * R)%type.
Definition vx (v : vec) : R := fst (fst v).
Definition vy (v : vec) : R := snd (fst v).
Definition vz (v : vec) : R := snd v.
Definition vadd (u v : vec) : vec := (vx u + vx v, vy u + vy v, vz u + vz v).
Definition vsub (u v : vec) : vec := (vx u - vx v, vy u - vy v, vz u - vz v).
Definition vscale (k : R) (v : vec) : vec := (k * vx v, k * vy v, k * vz v).
Definition dot (u v : vec) : R := vx u * vx v + vy u * vy v + vz u * vz v.
Definition cross (u v : vec) : vec :=
  (vy u * vz v - vz u * vy v, vz u * vx v - vx u * vz v, vx u * vy v - vy u * vx v).
Definition det (a b c : vec) : R := dot a (cross b c).
Definition norm2 (u : vec) : R := dot u u.
(** c0*A + c1*B + c2*C *)
Definition comb (A B C : vec) (c0 c1 c2 : R) : vec :=
  vadd (vadd (vscale c0 A) (vscale c1 B)) (vscale c2 C).
Definition dist2 (u v : vec) : R := norm2 (vsub u v).

Ltac vec_unfold := unfold dist2, norm2, comb, det, cross, dot, vscale, vsub, vadd, vx, vy, vz in *; cbn [fst snd] in *.
Ltac vec_ring := repeat match goal with v : vec |- _ => destruct v as [[? ?] ?] end; vec_unfold;
  lazymatch goal with
  | |- @eq R _ _ => ring
  | |- @eq _ _ _ => f_equal; [f_equal; ring | ring]
  end.

Lemma vec_eq (u v : vec) : vx u = vx v -> vy u = vy v -> vz u = vz v -> u = v.
Proof. destruct u as [[? ?] ?], v as [[? ?] ?]; cbn. congruence. Qed.
Lemma vadd_vsub (c p : vec) : vadd c (vsub p c) = p.
Proof. vec_ring. Qed.
Lemma vsub_vadd (c v : vec) : vsub (vadd c v) c = v.
Proof. vec_ring. Qed.
