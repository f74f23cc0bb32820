(** What structures are for their users: values without memory. *)
From Verif Require Import HeapModel LifeModel.
Open Scope nat_scope.

Record value : Type := { basis : list (list Z); origin : list Z; numbers : list Z; coords : list (list Z) }.
(** What a variable holds: a structure without atoms, one whose values were never given, or a
    structure with values. *)
Inductive held : Type := Empty | Unset (n : nat) | Full (v : value).
Definition values : Type := list (option held).

Definition vadd (a b : list Z) : list Z := map (fun p => fst p + snd p)%Z (combine a b).
Definition vscale (k : Z) (a : list Z) : list Z := map (Z.mul k) a.
(** The combination of the rows of [m] with the coefficients [c]. *)
Definition vcomb (c : list Z) (m : list (list Z)) : list Z :=
  fold_left vadd (map (fun p => vscale (fst p) (snd p)) (combine c m)) [0; 0; 0]%Z.

(** Enough rows of at least three numbers. *)
Definition table (n : nat) (l : list (list Z)) : bool := (n <=? length l) && forallb (fun r => 3 <=? length r) (firstn n l).
Definition made (n : nat) (b : list (list Z)) (a : list Z) (c : list (list Z)) (is_cart : bool) : option held :=
  if n =? 0 then Some Empty
  else if table 3 b && (n <=? length a) && table n c then
    let b3 := map (firstn 3) (firstn 3 b) in
    let cn := map (firstn 3) (firstn n c) in
    Some (Full {| basis := b3; origin := [0; 0; 0]%Z; numbers := firstn n a;
                  coords := if is_cart then cn else map (fun f => vcomb f b3) cn |})
  else None.

(** First cell of [s] along an axis, relative to the original one. *)
Definition first_cell (s : nat) : Z := - ((Z.of_nat s - 1) / 2).
Definition cells (s : nat) : list Z := map (fun k => first_cell s + Z.of_nat k)%Z (seq 0 s).
Definition enlarged (s0 s1 s2 : nat) (v : value) : value :=
  let shifts := flat_map (fun i => flat_map (fun j => map (fun k => vcomb [i; j; k] (basis v)) (cells s2)) (cells s1)) (cells s0) in
  {| basis := map (fun p => vscale (Z.of_nat (fst p)) (snd p)) (combine [s0; s1; s2] (basis v));
     origin := vcomb [first_cell s0; first_cell s1; first_cell s2] (basis v);
     numbers := concat (repeat (numbers v) (s0 * s1 * s2));
     coords := flat_map (fun d => map (vadd d) (coords v)) shifts |}.

Definition holds (vs : values) (x : nat) : option held := match nth_error vs x with Some (Some v) => Some v | _ => None end.
Definition vacant (vs : values) (x : nat) : bool := match nth_error vs x with Some None => true | _ => false end.
(** The meaning of a command: [None] when the values asked for do not exist. *)
Definition meaning (c : command) (vs : values) : option values :=
  let put x v := Some (replace vs x (Some v)) in
  match c with
  | Default x => if vacant vs x then put x Empty else None
  | Raw x n => if vacant vs x then put x (if n =? 0 then Empty else Unset n) else None
  | Make x n b a cs k => if vacant vs x then match made n b a cs k with Some v => put x v | None => None end else None
  | Copy x y => if vacant vs x then match holds vs y with Some Empty => put x Empty | Some (Full v) => put x (Full v) | _ => None end else None
  | Assign x y =>
      match holds vs x, holds vs y with
      | Some _, Some v => if x =? y then put x Empty
                          else match v with Unset _ => None | _ => put x v end
      | _, _ => None
      end
  | Enlarge x s0 s1 s2 => match holds vs x with Some (Full v) => put x (Full (enlarged s0 s1 s2 v)) | _ => None end
  | Destroy x => match holds vs x with Some _ => Some (replace vs x None) | None => None end
  end.
Fixpoint meaning_all (l : list command) (vs : values) : option values :=
  match l with [] => Some vs | c :: r => match meaning c vs with Some vs => meaning_all r vs | None => None end end.

Definition enlarges_properly (c : command) : Prop :=
  match c with Enlarge _ s0 s1 s2 => 0 < s0 /\ 0 < s1 /\ 0 < s2 | _ => True end.

(** What is printed of a value. *)
Definition print_of (v : value) : printed := {| p_basis := basis v; p_origin := origin v; p_sites := combine (numbers v) (coords v) |}.
Definition print_held (v : held) : hres (option printed) :=
  match v with Empty => HOk None | Unset _ => HErr Uninitialised | Full v => HOk (Some (print_of v)) end.

(** Memory in use. *)
Definition in_use (h : heap) : nat := length (filter (fun b => match b with Some _ => true | None => false end) h).
Definition needed (v : option held) : nat :=
  match v with Some (Unset n) => n + 7 | Some (Full v) => length (coords v) + 7 | _ => 0 end.
Definition needed_all (vs : values) : nat := list_sum (map needed vs).

(** What a user sees of a variable. *)
Definition seen (s : store_t) (x : nat) : hres (option printed) := hbind (object (fst s) x) (fun o => show o (snd s)).
Definition target (c : command) : nat :=
  match c with Default x | Raw x _ | Make x _ _ _ _ _ | Copy x _ | Assign x _ | Enlarge x _ _ _ | Destroy x => x end.
Definition expected (v : option held) : hres (option printed) := match v with Some v => print_held v | None => HErr NoObject end.

(** All atoms lie in the cell that starts at the origin: their positions relative to it are
    combinations of the basis vectors with coefficients [k/d] at least 0 and below 1. *)
Definition inside (p : printed) : Prop :=
  forall z c, In (z, c) (p_sites p) -> exists d k0 k1 k2, (0 <= k0 < d /\ 0 <= k1 < d /\ 0 <= k2 < d)%Z /\
    vscale d c = vadd (vscale d (p_origin p)) (vcomb [k0; k1; k2] (p_basis p)).
