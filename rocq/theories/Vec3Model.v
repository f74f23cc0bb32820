(** Vectors of three numbers: source/core/include/vecx.h.

    Simplified: numbers are real numbers without rounding, infinities or NaN; so a division by 0 has
    no meaning here and the theorems leave it out.  Operators that change their object work on a list
    of objects and the positions of operands, so that an operand can be the object itself. *)
From Coq Require Export Reals String.
From Verif Require Export Base.
Local Open Scope R_scope.
Local Open Scope list_scope.

Record vec3 : Type := V3 { d0 : R; d1 : R; d2 : R }.
(** vecx.h:21-23 *)
Definition origin3 : vec3 := V3 0 0 0.
(** vecx.h:39-47, [operator[]]; an index outside fails an assertion. *)
Definition at3 (v : vec3) (i : Z) : result R :=
  if ((0 <=? i) && (i <? 3))%Z%bool then Ok (if (i =? 0)%Z then d0 v else if (i =? 1)%Z then d1 v else d2 v) else Err AssertionError.
(** vecx.h:44-47, an assignment to the reference. *)
Definition put3 (v : vec3) (i : Z) (z : R) : result vec3 :=
  if ((0 <=? i) && (i <? 3))%Z%bool then
    Ok (if (i =? 0)%Z then V3 z (d1 v) (d2 v) else if (i =? 1)%Z then V3 (d0 v) z (d2 v) else V3 (d0 v) (d1 v) z)
  else Err AssertionError.
Definition same (x y : R) : bool := if Req_EM_T x y then true else false.
(** vecx.h:53-60 *)
Definition eq3 (a b : vec3) : bool := same (d0 a) (d0 b) && same (d1 a) (d1 b) && same (d2 a) (d2 b).
(** vecx.h:68-75 *)
Definition neq3 (a b : vec3) : bool := negb (same (d0 a) (d0 b)) || negb (same (d1 a) (d1 b)) || negb (same (d2 a) (d2 b)).
(** vecx.h:81-84 *)
Definition pos3 (a : vec3) : vec3 := V3 (d0 a) (d1 a) (d2 a).
(** vecx.h:91-94 *)
Definition add3 (a b : vec3) : vec3 := V3 (d0 a + d0 b) (d1 a + d1 b) (d2 a + d2 b).
(** vecx.h:111-114 *)
Definition neg3 (a : vec3) : vec3 := V3 (- d0 a) (- d1 a) (- d2 a).
(** vecx.h:120-123 *)
Definition sub3 (a b : vec3) : vec3 := V3 (d0 a - d0 b) (d1 a - d1 b) (d2 a - d2 b).
(** vecx.h:140-143 *)
Definition scale3 (a : vec3) (r : R) : vec3 := V3 (d0 a * r) (d1 a * r) (d2 a * r).
(** vecx.h:217-219, the number on the left. *)
Definition lscale3 (r : R) (a : vec3) : vec3 := V3 (d0 a * r) (d1 a * r) (d2 a * r).
(** vecx.h:160-168 *)
Definition div3 (a : vec3) (r : R) : vec3 := let f := 1 / r in V3 (d0 a * f) (d1 a * f) (d2 a * f).
(** vecx.h:186-189 *)
Definition dot3 (a b : vec3) : R := d0 a * d0 b + d1 a * d1 b + d2 a * d2 b.
(** vecx.h:195-202 *)
Definition cross3 (a b : vec3) : vec3 := V3 (d1 a * d2 b - d2 a * d1 b) (d2 a * d0 b - d0 a * d2 b) (d0 a * d1 b - d1 a * d0 b).
(** vecx.h:222-225 *)
Definition print3 (text : R -> string) (a : vec3) : string := ("[" ++ text (d0 a) ++ ", " ++ text (d1 a) ++ ", " ++ text (d2 a) ++ "]")%string.

(** *** Operators that change their object *)
Definition objects3 : Type := list vec3.
Fixpoint put_object (s : objects3) (x : nat) (v : vec3) : objects3 :=
  match s, x with [], _ => [] | _ :: r, O => v :: r | w :: r, S x => w :: put_object r x v end.
(** One component of the object at [x] changed by a function of its old value and the objects. *)
Definition change (s : objects3) (x : nat) (i : Z) (f : objects3 -> R -> result R) : result objects3 :=
  bind (get s x) (fun v => bind (at3 v i) (fun old => bind (f s old) (fun z => bind (put3 v i z) (fun w => Ok (put_object s x w))))).
Definition each (s : objects3) (f : objects3 -> Z -> result objects3) : result objects3 :=
  bind (f s 0%Z) (fun s => bind (f s 1%Z) (fun s => f s 2%Z)).
(** vecx.h:100-105 *)
Definition add_to (s : objects3) (x y : nat) : result objects3 :=
  each s (fun s i => change s x i (fun s old => bind (get s y) (fun b => bind (at3 b i) (fun z => Ok (old + z))))).
(** vecx.h:129-134 *)
Definition sub_from (s : objects3) (x y : nat) : result objects3 :=
  each s (fun s i => change s x i (fun s old => bind (get s y) (fun b => bind (at3 b i) (fun z => Ok (old - z))))).
(** vecx.h:149-154 *)
Definition mul_by (s : objects3) (x : nat) (r : R) : result objects3 := each s (fun s i => change s x i (fun _ old => Ok (old * r))).
(** vecx.h:174-180 *)
Definition div_by (s : objects3) (x : nat) (r : R) : result objects3 := let f := 1 / r in each s (fun s i => change s x i (fun _ old => Ok (old * f))).
