(** Shared vocabulary of all models: Python exceptions as values, the result
    monad, and Python-style list access.  Nothing here models a particular
    function of the repository; every model file cites its own sources. *)
From Coq Require Export List ZArith Lia Bool Arith.
Export ListNotations.

(** The exception classes that the modelled code can raise or propagate. *)
Inductive exn : Type :=
| IndexError | KeyError | ValueError | TypeError | AttributeError
| AssertionError | ZeroDivisionError | FileExistsError | NameError
| NotImplementedError | RuntimeError | PlainException.

Inductive result (A : Type) : Type :=
| Ok (a : A)
| Err (e : exn).
Arguments Ok {A} a.
Arguments Err {A} e.

Definition bind {A B} (x : result A) (f : A -> result B) : result B :=
  match x with Ok a => f a | Err e => Err e end.

Definition ret {A} (a : A) : result A := Ok a.

Declare Scope res_scope.
Delimit Scope res_scope with res.
Notation "x <- e1 ;; e2" := (bind e1 (fun x => e2))
  (at level 61, e1 at next level, right associativity) : res_scope.

(** [l[i]] for a non-negative Python index. *)
Definition get {A} (l : list A) (i : nat) : result A :=
  match nth_error l i with Some a => Ok a | None => Err IndexError end.

(** [[f(x) for x in l]] where [f] may raise: first exception wins. *)
Fixpoint mapM {A B} (f : A -> result B) (l : list A) : result (list B) :=
  match l with
  | [] => Ok []
  | x :: xs => bind (f x) (fun y => bind (mapM f xs) (fun ys => Ok (y :: ys)))
  end.

(** [try: e except: alternative] (any exception). *)
Definition try_except {A} (e : result A) (alt : result A) : result A :=
  match e with Ok a => Ok a | Err _ => alt end.

(** Python slice [l[a:b]] with [0 <= a] and [0 <= b]. *)
Definition slice {A} (a b : nat) (l : list A) : list A := firstn (b - a) (skipn a l).

(** Python slice [l[-k:]] with [k > 0]. *)
Definition last_n {A} (k : nat) (l : list A) : list A := skipn (length l - k) l.
