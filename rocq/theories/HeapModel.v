(** A C heap for the classes that manage their own memory.
    Blocks are never reused: a freed block stays freed, so every later use is visible.
    Simplified: [malloc] never fails and returns a fresh block also for size 0; a cell holds
    an integer or is not initialised yet. *)
From Verif Require Export Base.
From Coq Require Export Lia.

Inductive herr : Type := DoubleFree | BadFree | UseAfterFree | NullDeref | OutOfBounds | Uninitialised | NoObject | Aborted.
Inductive hres (A : Type) : Type := HOk (x : A) | HErr (e : herr).
Arguments HOk {A} x.
Arguments HErr {A} e.
Definition hbind {A B} (r : hres A) (f : A -> hres B) : hres B := match r with HOk x => f x | HErr e => HErr e end.

Definition heap : Type := list (option (list (option Z))).
Definition ptr : Type := option nat.

Fixpoint replace {A} (l : list A) (i : nat) (x : A) : list A :=
  match l, i with
  | [], _ => []
  | _ :: r, 0%nat => x :: r
  | y :: r, S j => y :: replace r j x
  end.

Definition malloc (h : heap) (n : nat) : ptr * heap := (Some (length h), h ++ [Some (repeat None n)]).

(** [free(nullptr)] does nothing. *)
Definition hfree (h : heap) (p : ptr) : hres heap :=
  match p with
  | None => HOk h
  | Some b => match nth_error h b with
              | Some (Some _) => HOk (replace h b None)
              | Some None => HErr DoubleFree
              | None => HErr BadFree
              end
  end.

Definition block_of (h : heap) (p : ptr) : hres (list (option Z)) :=
  match p with
  | None => HErr NullDeref
  | Some b => match nth_error h b with
              | Some (Some c) => HOk c
              | Some None => HErr UseAfterFree
              | None => HErr OutOfBounds
              end
  end.
Definition load (h : heap) (p : ptr) (i : nat) : hres Z :=
  hbind (block_of h p) (fun c => match nth_error c i with Some (Some v) => HOk v | Some None => HErr Uninitialised | None => HErr OutOfBounds end).
Definition store (h : heap) (p : ptr) (i : nat) (v : Z) : hres heap :=
  hbind (block_of h p) (fun c =>
    if i <? length c then match p with Some b => HOk (replace h b (Some (replace c i (Some v)))) | None => HErr NullDeref end
    else HErr OutOfBounds).

Fixpoint hfold {A S} (f : S -> A -> hres S) (l : list A) (s : S) : hres S :=
  match l with [] => HOk s | x :: r => hbind (f s x) (hfold f r) end.
