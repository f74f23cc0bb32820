(** What the objects of mtpMRadial_de.h are for their users. *)
From Verif Require Import RadDeModel.
From Verif Require Export ChebSpec.
Local Open Scope R_scope.
Local Open Scope list_scope.

(** One up to the inner radius, zero from the outer one on, and a polynomial between. *)
Definition fading (rc rs r : R) : R :=
  let u := (r - rs) / (rc - rs) in
  if Rle_dec r rs then 1 else if Rle_dec rc r then 0 else (1 - u) ^ 3 * (1 + 3 * u + 6 * u ^ 2).

(** A new object without values, or one for given radii, highest degree and distance. *)
Inductive known : Type := Blank | Known (rc rs : R) (degree : nat) (r : R).
Definition knowns : Type := list (option known).
Definition knows (vs : knowns) (x : nat) : option known := match nth_error vs x with Some v => v | None => None end.
Definition unused (vs : knowns) (x : nat) : bool := match nth_error vs x with Some None => true | _ => false end.
(** The meaning of an action for values; [None]: there is none. *)
Definition sense (c : action) (vs : knowns) : option knowns :=
  match c with
  | DDefault x => if unused vs x then Some (replace vs x (Some Blank)) else None
  | DMake x rc rs m r =>
      if unused vs x then if Rlt_dec rs rc then if (0 <=? m)%Z then Some (replace vs x (Some (Known rc rs (Z.to_nat m) r))) else None else None else None
  | DCopy x y => if unused vs x then match knows vs y with Some v => Some (replace vs x (Some v)) | None => None end else None
  | DAssign x y => match knows vs x, knows vs y with Some _, Some v => Some (replace vs x (Some v)) | _, _ => None end
  | DCalc x _ => match knows vs x with Some (Known _ _ _ _) => Some vs | _ => None end
  | DDestroy x => match knows vs x with Some _ => Some (replace vs x None) | None => None end
  end.
Fixpoint sense_all (l : list action) (vs : knowns) : option knowns :=
  match l with [] => Some vs | c :: r => match sense c vs with Some vs => sense_all r vs | None => None end end.
(** How many objects were made with arguments. *)
Definition made (l : list action) : nat := length (filter (fun c => match c with DMake _ _ _ _ _ => true | _ => false end) l).

(** What is seen of a value; [V] are the polynomials. *)
Definition correct (V : nat -> R -> R) (v : option known) (w : hres (R * R * Z * R * option (list (list R)))) : Prop :=
  match v with
  | None => w = HErr NoObject
  | Some Blank => w = HOk (0, 0, 0%Z, 0, None)
  | Some (Known rc rs m r) =>
      exists cv cd rv rd, w = HOk (rc, rs, Z.of_nat m, r, Some [cv; cd; rv; rd]) /\
      length cv = S m /\ length cd = S m /\ length rv = S m /\ length rd = S m /\
      forall n, (n <= m)%nat ->
        nth n cv 0 = V n (to_unit rc rs r) /\
        derivable_pt_lim (fun t => V n (to_unit rc rs t)) r (nth n cd 0) /\
        nth n rv 0 = fading rc rs r * V n (to_unit rc rs r) /\
        derivable_pt_lim (fun t => fading rc rs t * V n (to_unit rc rs t)) r (nth n rd 0)
  end.

(** A program for the examples. *)
Definition sample : list action := [DMake 0 6 2 3 3; DCopy 1 0; DDestroy 0; DCalc 1 RbDers].
