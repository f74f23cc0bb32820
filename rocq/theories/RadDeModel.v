(** The radial basis of source/descriptor/mtp/include/mtpMRadial_de.h: [SwitchFunc] and
    [RadialBasisChebyshev].

    Real numbers, no rounding; the memory is that of RadModel.  A [malloc] of a negative number of
    bytes, which is a request for almost the whole address space, fails and gives the null pointer;
    every other one succeeds.  The class has no destructor and no copy or move operations, so those of
    the compiler apply: an object is copied, moved and assigned field by field, pointers included, and
    nothing is freed.  [show] functions and the single getters of fields are one look at an object. *)
From Coq Require Export Reals.
From Verif Require Export RadModel.
Local Open Scope R_scope.
Local Open Scope list_scope.

(** mtpMRadial_de.h:59-72, [SwitchFunc::get_result] *)
Definition de_switch (rcut rcut_smooth r : R) : R :=
  let uu := (r - rcut_smooth) / (rcut - rcut_smooth) in
  if Rlt_dec r rcut_smooth then 1
  else if Rlt_dec r rcut then uu ^ 3 * (-6 * uu ^ 2 + 15 * uu - 10) + 1
  else 0.
(** mtpMRadial_de.h:75-88, [SwitchFunc::get_deriv2rji] *)
Definition de_switch_deriv (rcut rcut_smooth r : R) : R :=
  let uu := (r - rcut_smooth) / (rcut - rcut_smooth) in
  if Rlt_dec r rcut_smooth then 0
  else if Rlt_dec r rcut then 1 / (rcut - rcut_smooth) * (-30 * uu ^ 4 + 60 * uu ^ 3 - 30 * uu ^ 2)
  else 0.

(** mtpMRadial_de.h:161-168: the fields. *)
Record radial : Type := { d_rcut : R; d_smooth : R; d_hmju : Z; d_rji : R; d_cv : pointer; d_cd : pointer; d_rv : pointer; d_rd : pointer }.
(** mtpMRadial_de.h:175-184 *)
Definition no_radial : radial := {| d_rcut := 0; d_smooth := 0; d_hmju := 0; d_rji := 0; d_cv := Null; d_cd := Null; d_rv := Null; d_rd := Null |}.

Definition put_cell (p : pointer) (i : nat) (v : R) (h : memory R) : hres (memory R) := write R h p i v.
(** The three branches on [hmju] common to the four methods: the first cell; the first two; and then
    the rest in a loop.  [cell ii h] stores cell [ii]. *)
Definition by_degree (hmju : Z) (cell : nat -> memory R -> hres (memory R)) (h : memory R) : hres (memory R) :=
  if (hmju =? 0)%Z then cell 0%nat h
  else if (hmju =? 1)%Z then hbind (cell 0%nat h) (cell 1%nat)
  else hbind (cell 0%nat h) (fun h => hbind (cell 1%nat h) (fun h =>
       hfold (fun h ii => cell ii h) (seq 2 (Z.to_nat (hmju + 1) - 2)) h)).
Definition ksi (o : radial) : R := (2 * d_rji o - (d_rcut o + d_smooth o)) / (d_rcut o - d_smooth o).
Definition ksi_deriv (o : radial) : R := 2 / (d_rcut o - d_smooth o).

(** mtpMRadial_de.h:220-240, [calc_chebyshev_vals] *)
Definition calc_cv (o : radial) : memory R -> hres (memory R) := by_degree (d_hmju o) (fun ii h =>
  match ii with
  | 0%nat => put_cell (d_cv o) 0 1 h
  | 1%nat => put_cell (d_cv o) 1 (ksi o) h
  | _ => hbind (read R h (d_cv o) (ii - 1)) (fun v1 => hbind (read R h (d_cv o) (ii - 2)) (fun v2 =>
         put_cell (d_cv o) ii (2 * ksi o * v1 - v2) h))
  end).
(** mtpMRadial_de.h:244-269, [calc_chebyshev_ders] *)
Definition calc_cd (o : radial) : memory R -> hres (memory R) := by_degree (d_hmju o) (fun ii h =>
  match ii with
  | 0%nat => put_cell (d_cd o) 0 0 h
  | 1%nat => put_cell (d_cd o) 1 (ksi_deriv o) h
  | _ => hbind (read R h (d_cv o) (ii - 1)) (fun v1 => hbind (read R h (d_cd o) (ii - 1)) (fun d1 => hbind (read R h (d_cd o) (ii - 2)) (fun d2 =>
         put_cell (d_cd o) ii (2 * ksi_deriv o * v1 + 2 * ksi o * d1 - d2) h)))
  end).
(** mtpMRadial_de.h:272-293, [calc_rb_vals] *)
Definition calc_rv (o : radial) : memory R -> hres (memory R) :=
  let s := de_switch (d_rcut o) (d_smooth o) (d_rji o) in
  by_degree (d_hmju o) (fun ii h => hbind (read R h (d_cv o) ii) (fun v => put_cell (d_rv o) ii (s * v) h)).
(** mtpMRadial_de.h:296-337, [calc_rb_ders] *)
Definition calc_rd (o : radial) : memory R -> hres (memory R) :=
  let s := de_switch (d_rcut o) (d_smooth o) (d_rji o) in
  let ds := de_switch_deriv (d_rcut o) (d_smooth o) (d_rji o) in
  by_degree (d_hmju o) (fun ii h => hbind (read R h (d_cd o) ii) (fun d => hbind (read R h (d_cv o) ii) (fun v => put_cell (d_rd o) ii (s * d + ds * v) h))).

(** mtpMRadial_de.h:200-203: four arrays of [hmju + 1] numbers. *)
Definition four_arrays (hmju : Z) (h : memory R) : list pointer * memory R :=
  if (hmju + 1 <? 0)%Z then ([Null; Null; Null; Null], h) else alloc_all R 4 (Z.to_nat (hmju + 1)) h.
(** mtpMRadial_de.h:187-216, the constructor. *)
Definition make_radial (rcut rcut_smooth : R) (hmju : Z) (rji : R) (h : memory R) : hres (radial * memory R) :=
  if Rlt_dec rcut_smooth rcut then
    let '(ps, h) := four_arrays hmju h in
    let o := {| d_rcut := rcut; d_smooth := rcut_smooth; d_hmju := hmju; d_rji := rji;
                d_cv := nth 0 ps Null; d_cd := nth 1 ps Null; d_rv := nth 2 ps Null; d_rd := nth 3 ps Null |} in
    hbind (fill R 0 (Z.to_nat (hmju + 1)) [d_cv o; d_cd o; d_rv o; d_rd o] h) (fun h =>
    hbind (calc_cv o h) (fun h => hbind (calc_cd o h) (fun h => hbind (calc_rv o h) (fun h => hbind (calc_rd o h) (fun h =>
    HOk (o, h))))))
  else HErr Aborted.

(** *** Programs *)
Inductive part_of : Type := ChebVals | ChebDers | RbVals | RbDers.
Inductive action : Type :=
  | DDefault (x : nat)
  | DMake (x : nat) (rcut rcut_smooth : R) (hmju : Z) (rji : R)
  | DCopy (x y : nat)
  | DAssign (x y : nat)
  | DCalc (x : nat) (p : part_of)
  | DDestroy (x : nat).
Definition calc (p : part_of) : radial -> memory R -> hres (memory R) :=
  match p with ChebVals => calc_cv | ChebDers => calc_cd | RbVals => calc_rv | RbDers => calc_rd end.
Definition world : Type := list (option radial) * memory R.
Definition act (c : action) (s : world) : hres world :=
  match c with
  | DDefault x => hbind (vacant R radial s x) (fun _ => HOk (replace (fst s) x (Some no_radial), snd s))
  | DMake x rc rs m r => hbind (vacant R radial s x) (fun _ => hbind (make_radial rc rs m r (snd s)) (fun '(o, h) => HOk (replace (fst s) x (Some o), h)))
  | DCopy x y => hbind (vacant R radial s x) (fun _ => hbind (object R radial s y) (fun o => HOk (replace (fst s) x (Some o), snd s)))
  | DAssign x y => hbind (object R radial s x) (fun _ => hbind (object R radial s y) (fun o => HOk (replace (fst s) x (Some o), snd s)))
  | DCalc x p => hbind (object R radial s x) (fun o => hbind (calc p o (snd s)) (fun h => HOk (fst s, h)))
  | DDestroy x => hbind (object R radial s x) (fun _ => HOk (replace (fst s) x None, snd s))
  end.
Fixpoint acts (l : list action) (s : world) : hres world := match l with [] => HOk s | c :: r => hbind (act c s) (acts r) end.
Definition empty_world (n : nat) : world := (repeat None n, []).
(** mtpMRadial_de.h:387-433, the getters: the arguments, and the cells behind the four pointers;
    [None] if the pointers are null. *)
Definition glance (o : radial) (h : memory R) : hres (R * R * Z * R * option (list (list R))) :=
  match d_cv o with
  | Null => HOk (d_rcut o, d_smooth o, d_hmju o, d_rji o, None)
  | _ => hbind (read_arrays R h (Z.to_nat (d_hmju o + 1)) [d_cv o; d_cd o; d_rv o; d_rd o]) (fun a =>
         HOk (d_rcut o, d_smooth o, d_hmju o, d_rji o, Some a))
  end.
Definition visible (s : world) (x : nat) : hres (R * R * Z * R * option (list (list R))) := hbind (object R radial s x) (fun o => glance o (snd s)).
