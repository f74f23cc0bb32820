(** Normalisation of environment matrices (matersdk/feature/deepmd/preprocess.py). *)
From Verif Require Import Arr.
From Coq Require Export Reals Lra.
Open Scope R_scope.

(** A row of the environment matrix: s, s x/r, s y/r, s z/r. *)
Definition row4 : Type := (R * R * R * R)%type.
Definition rad (r : row4) : R := fst (fst (fst r)).
Definition ang (r : row4) : list R := [snd (fst (fst r)); snd (fst r); snd r].

(** [np.sum] of a flat array. *)
Definition sumR (l : list R) : R := fold_right Rplus 0 l.

(** [np.sqrt] on a real: [None] is nan. *)
Definition np_sqrt (x : R) : option R := if Rlt_dec x 0 then None else Some (sqrt x).

(** preprocess.py:514-534.  Comparison with nan is false. *)
Definition calc_std (sum2 sum : R) (N : nat) : option R :=
  match N with
  | O => Some (1 / 100)
  | _ => match np_sqrt (sum2 / INR N - (sum / INR N) * (sum / INR N)) with
         | None => None
         | Some std => if Rlt_dec (Rabs std) (1 / 100) then Some (1 / 100) else Some std
         end
  end.

(** preprocess.py:457-511. *)
Definition calc_stats (rows : list row4) : (R * R * R * R) * (option R * option R * option R * option R) :=
  let radius := map rad rows in
  let angles := flat_map ang rows in
  let sum_r := sumR radius in
  let sum_a := sumR angles / 3 in
  let sum2_r := sumR (map (fun x => x * x) radius) in
  let sum2_a := sumR (map (fun x => x * x) angles) / 3 in
  let N := length radius in
  ((sum_r / (INR N + 1 / 10 ^ 15), 0, 0, 0),
   (calc_std sum2_r sum_r N, calc_std sum2_a sum_a N, calc_std sum2_a sum_a N, calc_std sum2_a sum_a N)).

(** preprocess.py:537-572, one row; the same for every frame, centre and neighbour. *)
Definition normalize_row (davg dstd : R * R * R * R) (r : row4) : row4 :=
  let '(a0, a1, a2, a3) := davg in let '(d0, d1, d2, d3) := dstd in let '(x0, x1, x2, x3) := r in
  ((x0 - a0) / d0, (x1 - a1) / d1, (x2 - a2) / d2, (x3 - a3) / d3).
(** preprocess.py:575-600, the derivative of one row along one direction. *)
Definition normalize_derivative_row (dstd : R * R * R * R) (r : row4) : row4 :=
  let '(d0, d1, d2, d3) := dstd in let '(x0, x1, x2, x3) := r in (x0 / d0, x1 / d1, x2 / d2, x3 / d3).

(** preprocess.py:255-379: the blocks of all element pairs and their assembly.  A block has one
    row per centre atom; [block c n] is the normalised block of the pair.  The dictionary keys
    "c_n" are modelled as pairs of numbers. *)
Section Assemble.
Context {F : Type}.
Definition block : Type := list (list F).
Definition block_dict (blocks : Z -> Z -> block) (centers nbrs : list Z) : list ((Z * Z) * block) :=
  flat_map (fun c => map (fun n => ((c, n), blocks c n)) nbrs) centers.
Fixpoint dict_get (d : list ((Z * Z) * block)) (c n : Z) : result block :=
  match d with
  | [] => Err KeyError
  | ((c', n'), b) :: t => if ((c =? c') && (n =? n'))%Z%bool then Ok b else dict_get t c n
  end.
(** [np.concatenate(..., axis=1)]: all parts need the same number of rows. *)
Fixpoint hcat2 (a b : block) : block := match a, b with x :: a', y :: b' => (x ++ y) :: hcat2 a' b' | _, _ => [] end.
Definition hcat (parts : list block) : result block :=
  match parts with
  | [] => Err ValueError
  | p :: r => if forallb (fun q => Nat.eqb (length q) (length p)) r then Ok (fold_left hcat2 r p) else Err ValueError
  end.
(** [np.concatenate(..., axis=0)]: all rows need the same width. *)
Definition vcat (parts : list block) : result block :=
  match parts with
  | [] => Err ValueError
  | _ => match concat parts with
         | [] => Ok []
         | r :: rest => if forallb (fun x => Nat.eqb (length x) (length r)) rest then Ok (r :: rest) else Err ValueError
         end
  end.
(** Both loops of preprocess.py:361-365 run over the centre elements. *)
Definition assemble (blocks : Z -> Z -> block) (centers nbrs : list Z) : result block :=
  let d := block_dict blocks centers nbrs in
  bind (mapM (fun c => bind (mapM (fun n => dict_get d c n) centers) hcat) centers) vcat.
End Assemble.
