(** Model of source/core/include/vec3Operation.h, [RecursionOuterProduct].
    The numbers are any type with any multiplication (nothing about arithmetic is used), a cell
    of a fresh array is [None] until it is written.  [nju] is k + 1; below 1 the function is
    undefined (the row count is pow(3, nju - 1), and the recursion does not stop). *)
From Verif Require Export Arr.
Open Scope nat_scope.

Section Outer.
Context {T : Type}.
Variable mul : T -> T -> T.

Definition cell_at (t : list (list (option T))) (r c : nat) : result T :=
  bind (get t r) (fun row => bind (get row c) (fun v => match v with Some x => Ok x | None => Err ValueError end)).
Definition put_at (t : list (list (option T))) (r c : nat) (x : T) : result (list (list (option T))) :=
  bind (get t r) (fun row => bind (set row c (Some x)) (fun row' => set t r row')).

(** vec3Operation.h:36-69, with [nju] = k + 1 and 3^(nju - 1) = 3^k rows. *)
Fixpoint outer (k : nat) (vec : list T) : result (list (list (option T))) :=
  let fresh := repeat (repeat None 3) (3 ^ k) in
  match k with
  | 0 => (* 42-45 *)
    bind (get vec 0) (fun x => bind (put_at fresh 0 0 x) (fun t =>
    bind (get vec 1) (fun y => bind (put_at t 0 1 y) (fun t =>
    bind (get vec 2) (fun z => put_at t 0 2 z)))))
  | S k' =>
    match k' with
    | 0 => (* 46-49 *)
      foldM (fun t ii => foldM (fun t jj =>
        bind (get vec ii) (fun x => bind (get vec jj) (fun y => put_at t ii jj (mul x y)))) (seq 0 3) t) (seq 0 3) fresh
    | _ => (* 50-66 *)
      bind (outer k' vec) (fun lower =>
      foldM (fun t ii => foldM (fun t jj => foldM (fun t kk =>
        bind (cell_at lower ii jj) (fun x => bind (get vec kk) (fun y => put_at t (ii * 3 + jj) kk (mul x y)))) (seq 0 3) t) (seq 0 3) t) (seq 0 (3 ^ k')) fresh)
    end
  end.
End Outer.
