(** Parameter objects as plain values: no heap, no pointers. *)
From Coq Require Export ZArith List Arith Bool Lia.
From Verif Require Export ParamModel.
Import ListNotations.

Definition value : Type := (Z * list Z * list Z * list Z)%type.
Definition store_of : Type := nat -> option value.
Definition set_value (s : store_of) (i : nat) (v : option value) : store_of := fun k => if k =? i then v else s k.
Definition no_value : value := (0%Z, [], [], []).

(** What each statement means for the values. *)
Definition meaning (s : store_of) (o : op) : store_of :=
  match o with
  | New i => set_value s i (Some no_value)
  | Load i mc vb vt vm _ _ _ => set_value s i (Some (mc, vb, vt, vm))
  | CopyNew i j | CopyAssign i j => set_value s i (s j)
  | MoveNew i j | MoveAssign i j => if i =? j then s else set_value (set_value s i (s j)) j (Some no_value)
  | Destroy i => set_value s i None
  end.
Definition meaning_of (s : store_of) (l : list op) : store_of := fold_left meaning l s.

(** Programs that are correct C++ by the plain reading of the class: objects are constructed
    once, used while alive and destroyed once; loaded tables have the sizes announced.
    [assign] says which copy assignments are admitted; move assignments are not. *)
Definition usable (assign : value -> value -> Prop) (s : store_of) (o : op) : Prop :=
  match o with
  | New i => s i = None
  | Load i _ vb vt vm nb nt ns => s i = None /\ length vb = 4 * nb /\ length vt = 4 * nt /\ length vm = ns
  | CopyNew i j | MoveNew i j => s i = None /\ s j <> None
  | CopyAssign i j => i <> j /\ exists v u, s i = Some v /\ s j = Some u /\ assign v u
  | MoveAssign i j => False
  | Destroy i => s i <> None
  end.
Fixpoint usable_all (assign : value -> value -> Prop) (s : store_of) (l : list op) : Prop :=
  match l with [] => True | o :: r => usable assign s o /\ usable_all assign (meaning s o) r end.

(** Assigning keeps every table of the target that is not empty non-empty. *)
Definition keeps_tables (v u : value) : Prop :=
  let '(_, b, t, m) := v in let '(_, b', t', m') := u in
  (b' = [] -> b = []) /\ (t' = [] -> t = []) /\ (m' = [] -> m = []).
Definition never (v u : value) : Prop := False.

(** Every value can be read back through the accessors. *)
Definition shows (w : world) (s : store_of) : Prop :=
  forall i, match s i with Some v => show w i = HOk v | None => show w i = HErr NoObject end.

Definition start : world := (fun _ => None, []).
Definition nothing : store_of := fun _ => None.
Definition no_block_left (w : world) : Prop := forall b c, nth_error (snd w) b <> Some (Some c).

(** The states correct programs reach. *)
Definition reachable (w : world) : Prop := exists l, usable_all keeps_tables nothing l /\ run_ops start l = HOk w.
Definition basic_table (v : value) : list Z := let '(_, b, _, _) := v in b.
Definition times_table (v : value) : list Z := let '(_, _, t, _) := v in t.
Definition mapping_table (v : value) : list Z := let '(_, _, _, m) := v in m.
