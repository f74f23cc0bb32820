(** What radial functions are for their users: values without memory. *)
From Verif Require Import RadModel.
Local Open Scope nat_scope.
Local Open Scope list_scope.

Section Values.
Variable V : Type.
(** An object never given a value; an empty one; one with a size, two radii and perhaps the distance
    it was last built for. *)
Inductive held : Type := Raw | Empty | Full (n : nat) (hi lo : V) (built : option V).
Definition values : Type := list (option held).
Definition holds (vs : values) (x : nat) : option held := match nth_error vs x with Some v => v | None => None end.
Definition is_free (vs : values) (x : nat) : bool := match nth_error vs x with Some None => true | _ => false end.

(** The meaning of a command.  [None]: nothing is claimed.  [first] is the value of a new object,
    [can_build] says for which radii and distance an object can be built. *)
Section Meaning.
Variable first : held.
Variable can_build : V -> V -> V -> bool.
Definition meaning (c : command V) (vs : values) : option values :=
  let set x v := replace vs x (Some v) in
  match c with
  | Default _ x => if is_free vs x then Some (set x first) else None
  | Make _ x n hi lo => if is_free vs x then match n with 0 => None | _ => Some (set x (Full n hi lo None)) end else None
  | Copy _ x y => if is_free vs x then match holds vs y with Some (Full n hi lo r) => Some (set x (Full n hi lo r)) | _ => None end else None
  | Move _ x y => if is_free vs x then match holds vs y with Some (Full n hi lo r) => Some (replace (set x (Full n hi lo r)) y (Some Empty)) | _ => None end else None
  | Assign _ x y => match holds vs x, holds vs y with Some _, Some (Full n hi lo r) => if x =? y then None else Some (set x (Full n hi lo r)) | _, _ => None end
  | MoveAssign _ x y =>
      match holds vs x, holds vs y with
      | Some _, Some (Full n hi lo r) => if x =? y then Some vs else Some (replace (set x (Full n hi lo r)) y (Some Empty))
      | _, _ => None
      end
  | Build _ x r => match holds vs x with Some (Full n hi lo _) => if can_build hi lo r then Some (set x (Full n hi lo (Some r))) else None | _ => None end
  | Destroy _ x => match holds vs x with Some Empty | Some (Full _ _ _ _) => Some (replace vs x None) | _ => None end
  end.
Fixpoint meaning_all (l : list (command V)) (vs : values) : option values :=
  match l with [] => Some vs | c :: r => match meaning c vs with Some vs => meaning_all r vs | None => None end end.
End Meaning.

(** Memory in use: blocks that were allocated and not freed. *)
Fixpoint in_use (h : memory V) : nat := match h with [] => 0 | Some _ :: r => S (in_use r) | None :: r => in_use r end.
(** Every object with values needs [k] blocks. *)
Definition needed (k : nat) (vs : values) : nat := list_sum (map (fun v => match v with Some (Full _ _ _ _) => k | _ => 0 end) vs).

(** *** What is shown *)
(** [tables]: the arrays of an object of that size and radii, built for a distance; [fields]: the
    other fields. *)
Definition shows (zero : V) (k : nat) (fields : V -> V -> list V) (tables : nat -> V -> V -> V -> list (list V)) (v : option held) : hres (view V) :=
  match v with
  | None => HErr NoObject
  | Some (Full n hi lo None) => HOk (n, fields hi lo, repeat (repeat zero n) k)
  | Some (Full n hi lo (Some r)) => HOk (n, fields hi lo, tables n hi lo r)
  | Some _ => HOk (0, fields zero zero, [])
  end.
Section Tables.
Variables zero one : V.
Variable vnext : V -> V -> V -> V.
Variable dnext : V -> V -> V -> V -> V.
Variables mul add : V -> V -> V.
Variable scaled : V -> V -> V -> V.
Variable coeff : V -> V -> V.
Variables inside : V -> V -> V -> bool.
Variables factor slope : V -> V -> V -> V.
(** Two sequences by recursion, two members at a time: values and derivatives. *)
Fixpoint members (u : V) (k : nat) : (V * V) * (V * V) :=
  match k with
  | 0 => ((one, zero), (u, one))
  | S k => let '((v2, d2), (v1, d1)) := members u k in ((v1, d1), (vnext u v1 v2, dnext u v1 d1 d2))
  end.
Definition value (u : V) (k : nat) : V := fst (fst (members u k)).
Definition deriv (u : V) (k : nat) : V := snd (fst (members u k)).
Definition rderiv (hi lo r : V) (k : nat) : V := mul (deriv (scaled hi lo r) k) (coeff hi lo).
Definition polynomials (n : nat) (hi lo r : V) : list (list V) :=
  [map (value (scaled hi lo r)) (seq 0 n); map (deriv (scaled hi lo r)) (seq 0 n); map (rderiv hi lo r) (seq 0 n)].
(** Zero outside. *)
Definition cut_polynomials (n : nat) (hi lo r : V) : list (list V) := if inside hi lo r then polynomials n hi lo r else repeat (repeat zero n) 3.
Definition cut_value (hi lo r : V) (k : nat) : V := if inside hi lo r then value (scaled hi lo r) k else zero.
Definition cut_rderiv (hi lo r : V) (k : nat) : V := if inside hi lo r then rderiv hi lo r k else zero.
Definition q_tables (n : nat) (hi lo r : V) : list (list V) :=
  [map (fun k => mul (cut_value hi lo r k) (factor hi lo r)) (seq 0 n);
   map (fun k => add (mul (cut_rderiv hi lo r k) (factor hi lo r)) (mul (cut_value hi lo r k) (slope hi lo r))) (seq 0 n)].
Definition rq_tables (n : nat) (hi lo r : V) : list (list V) :=
  [map (fun k => mul (factor hi lo r) (value (scaled hi lo r) k)) (seq 0 n);
   map (fun k => add (mul (slope hi lo r) (value (scaled hi lo r) k)) (mul (factor hi lo r) (rderiv hi lo r k))) (seq 0 n)].
End Tables.
End Values.
(** The variables that a command touches. *)
Definition touches {V} (c : command V) (x : nat) : Prop :=
  match c with Default _ y | Make _ y _ _ _ | Copy _ y _ | Assign _ y _ | Build _ y _ | Destroy _ y => x = y | Move _ y z | MoveAssign _ y z => x = y \/ x = z end.
