(** What neighbour lists are for their users: values without memory. *)
From Verif Require Import HeapModel LifeModel LifeSpec OwnModel.
Local Open Scope nat_scope.

(** A variable holds an empty neighbour list or one with values. *)
Inductive nl_held : Type := NEmpty | NFull (w : bin_view) (lists : list (list Z)).
Definition nl_values : Type := list (option nl_held).

Section Meaning.
Variable lengths_of : printed -> list Z * list Z.
Variable extending : printed -> Z -> nat * nat * nat.
Variable bins_of : printed -> list Z -> nat * nat * nat.
Variable min_of : printed -> list Z.
Variable bin_of : bin_info -> list Z -> Z.
Variable found : bin_view -> nat -> list Z.
Variable arranged : bin_view -> nat -> list Z -> list Z.

(** The largest position of [b] in the list, or -1. *)
Fixpoint last_pos (bs : list Z) (b : Z) : Z :=
  match bs with
  | [] => -1
  | c :: r => let p := last_pos r b in if (0 <=? p)%Z then p + 1 else if (c =? b)%Z then 0 else -1
  end%Z.
(** Cells on both sides in the periodic directions. *)
Definition factor (p : bool) (e : nat) : nat := if p then S (2 * e) else 1.
Definition middle (p : bool) (e : nat) : Z := if p then Z.of_nat e else 0.
(** The list for a structure with cutoff, bins and directions: [None] if an atom is in no bin. *)
Definition nl_of (v : value) (a : arguments) : option nl_held :=
  let n := length (coords v) in
  let '(e0, e1, e2) := extending (print_of v) (a_rcut a) in
  let '(p0, p1, p2) := a_pbc a in
  let '(s0, s1, s2) := (factor p0 e0, factor p1 e1, factor p2 e2) in
  let big := enlarged s0 s1 s2 v in
  let cell := ((Z.of_nat (s0 * s1 * s2) - 1) / 2)%Z in
  let nb := bins_of (print_of big) (a_size a) in
  let bins := {| bin_size := a_size a; pbc := a_pbc a; num_bin := nb; min_limit := min_of (print_of big) |} in
  let total := (let '(b0, b1, b2) := nb in b0 * b1 * b2) in
  let bs := map (bin_of bins) (coords big) in
  if forallb (fun k => (0 <=? k)%Z && (k <? Z.of_nat total)%Z) bs then
    let w := {| w_structure := print_of big;
                w_cells := {| prim := n; lengths := lengths_of (print_of v); scaling := (s0, s1, s2);
                              cell_xyz := (middle p0 e0, middle p1 e1, middle p2 e2); cell_idx := cell |};
                w_owned := map (fun i => cell * Z.of_nat n + Z.of_nat i)%Z (seq 0 n);
                w_rcut := a_rcut a; w_bins := bins;
                w_heads := map (fun k => last_pos bs (Z.of_nat k)) (seq 0 total);
                w_nexts := map (fun i => last_pos (firstn i bs) (nth i bs 0%Z)) (seq 0 (length bs)) |} in
    Some (NFull w (map (fun i => if a_sort a then arranged w i (found w i) else found w i) (seq 0 n)))
  else None.
(** The meaning of a construction: no list without atoms. *)
Definition nl_made (a : arguments) : option nl_held :=
  match made (a_n a) (a_basis a) (a_numbers a) (a_coords a) (a_cart a) with
  | Some (Full v) => nl_of v a
  | _ => None
  end.

Definition nl_holds (vs : nl_values) (x : nat) : option nl_held := match nth_error vs x with Some (Some v) => Some v | _ => None end.
Definition nl_vacant (vs : nl_values) (x : nat) : bool := match nth_error vs x with Some None => true | _ => false end.
(** The meaning of a command: [None] when the values asked for do not exist, and for a list with
    values assigned to itself. *)
Definition nl_meaning (c : nl_command) (vs : nl_values) : option nl_values :=
  let put x v := Some (replace vs x (Some v)) in
  match c with
  | NDefault x => if nl_vacant vs x then put x NEmpty else None
  | NMake x a => if nl_vacant vs x then match nl_made a with Some v => put x v | None => None end else None
  | NCopy x y => if nl_vacant vs x then match nl_holds vs y with Some v => put x v | None => None end else None
  | NAssign x y =>
      match nl_holds vs x, nl_holds vs y with
      | Some _, Some (NFull w l) => if x =? y then None else put x (NFull w l)
      | Some _, Some NEmpty => put x NEmpty
      | _, _ => None
      end
  | NDestroy x => match nl_holds vs x with Some _ => Some (replace vs x None) | None => None end
  end.
Fixpoint nl_meaning_all (l : list nl_command) (vs : nl_values) : option nl_values :=
  match l with [] => Some vs | c :: r => match nl_meaning c vs with Some vs => nl_meaning_all r vs | None => None end end.
End Meaning.

Definition nl_expected (v : option nl_held) : hres nl_view :=
  match v with None => HErr NoObject | Some NEmpty => HOk (0%Z, None) | Some (NFull w l) => HOk (w_rcut w, Some (w, l)) end.
(** Blocks of memory: the structure, three arrays, the array of vectors and the vectors. *)
Definition nl_needed (v : option nl_held) : nat :=
  match v with Some (NFull w l) => length (p_sites (w_structure w)) + 7 + 3 + 1 + length l | _ => 0 end.
Definition nl_needed_all (vs : nl_values) : nat := list_sum (map nl_needed vs).
Definition with_cutoff (c : nl_command) : Prop := match c with NMake _ a => a_rcut a <> 0%Z | _ => True end.
Definition nl_target (c : nl_command) : nat := match c with NDefault x | NMake x _ | NCopy x _ | NAssign x _ | NDestroy x => x end.
