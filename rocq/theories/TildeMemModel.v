(** Memory of the C++ class [TildeR]: source/descriptor/deepmd/include/se.h.
    An object has a neighbour list, the numbers of its central and of its neighbouring species and
    four arrays of integers.  A program is a list of constructions, copies, assignments and
    destructions of the objects of a fixed number of variables.
    Simplified: the memory of the neighbour list is the subject of OwnModel; here it is a value (the
    cutoff, the species of the atoms of the supercell and for every atom its neighbours), and the
    assignment of a list with atoms to itself is an error, as proved there.  The numbers of
    species are natural numbers, the arrays passed to a constructor are lists, species lists exactly
    as long as their numbers say; distances are integers (they are only moved); [malloc] never fails. *)
From Verif Require Export HeapModel.
Open Scope nat_scope.

Record nlist : Type := { nl_rcut : Z; nl_numbers : list Z; nl_lists : list (list nat) }.
(** An object without atoms: binLinkedList.h and neighborList.h, the default constructors. *)
Definition no_list : nlist := {| nl_rcut := 0; nl_numbers := []; nl_lists := [] |}.

(** se.h:407-415, the members. *)
Record tilde : Type := { t_list : nlist; t_nc : nat; t_centers : ptr; t_nn : nat; t_neighs : ptr;
                         t_ccounts : ptr; t_ncounts : ptr; t_rcut : Z; t_smooth : Z }.

(** [malloc] of [size] integers and a loop that assigns the first [n]. *)
Definition new_table (size n : nat) (e : heap -> nat -> hres Z) (h : heap) : hres (ptr * heap) :=
  let '(p, h) := malloc h size in
  hbind (hfold (fun h ii => hbind (e h ii) (fun v => store h p ii v)) (seq 0 n) h) (fun h => HOk (p, h)).
(** An argument of a constructor: reading behind its end is an error. *)
Definition arg {A} (l : list A) (i : nat) : hres A := match nth_error l i with Some z => HOk z | None => HErr OutOfBounds end.

(** se.h:1582-1587: the counting of one central species. *)
Definition count_centers (nl : nlist) (z : Z) : hres nat :=
  hfold (fun k jj => hbind (arg (nl_numbers nl) jj) (fun a => HOk (if (a =? z)%Z then S k else k))) (seq 0 (length (nl_lists nl))) 0.
(** se.h:1576-1589, [calc_num_center_atoms_lst]. *)
Definition calc_centers (nl : nlist) (nc : nat) (centers : ptr) (h : heap) : hres (ptr * heap) :=
  new_table nc nc (fun h ii => hbind (load h centers ii) (fun z => hbind (count_centers nl z) (fun k => HOk (Z.of_nat k)))) h.
(** se.h:1602-1606: the neighbours of one species of one atom. *)
Definition count_neighs (nl : nlist) (l : list nat) (z : Z) : hres nat :=
  hfold (fun k i => hbind (arg (nl_numbers nl) i) (fun a => HOk (if (a =? z)%Z then S k else k))) l 0.
(** se.h:1593-1611, [calc_num_neigh_atoms_lst]. *)
Definition calc_neighs (nl : nlist) (nn : nat) (neighs : ptr) (h : heap) : hres (ptr * heap) :=
  hbind (new_table nn nn (fun _ _ => HOk 0%Z) h) (fun '(p, h) =>
  hbind (hfold (fun h ii => hfold (fun h l =>
    hbind (load h neighs ii) (fun z => hbind (count_neighs nl l z) (fun k =>
    hbind (load h p ii) (fun m => if (Z.of_nat k >? m)%Z then store h p ii (Z.of_nat k) else HOk h)))) (nl_lists nl) h) (seq 0 nn) h) (fun h =>
  HOk (p, h))).

(** se.h:1281-1291 *)
Definition t_default : tilde :=
  {| t_list := no_list; t_nc := 0; t_centers := None; t_nn := 0; t_neighs := None; t_ccounts := None; t_ncounts := None; t_rcut := 0; t_smooth := 0 |}.

(** se.h:1307-1337, 1352-1377, 1396-1428, 1446-1474: the four constructors; [counts] is given to
    the first and the third one.  The third and the fourth make the neighbour list first. *)
Definition t_make (nl : nlist) (cs ns : list Z) (counts : option (list Z)) (smooth : Z) (h : heap) : hres (tilde * heap) :=
  let nc := length cs in let nn := length ns in
  hbind (new_table nc nc (fun _ => arg cs) h) (fun '(pc, h) =>
  hbind (new_table nn nn (fun _ => arg ns) h) (fun '(pn, h) =>
  hbind (calc_centers nl nc pc h) (fun '(qc, h) =>
  hbind (match counts with
         | Some ks => new_table nn nn (fun _ => arg ks) h
         | None => calc_neighs nl nn pn h
         end) (fun '(qn, h) =>
  HOk ({| t_list := nl; t_nc := nc; t_centers := pc; t_nn := nn; t_neighs := pn; t_ccounts := qc; t_ncounts := qn;
          t_rcut := nl_rcut nl; t_smooth := smooth |}, h))))).

(** se.h:1484-1507, the copy constructor.  The first two arrays are allocated with
    [sizeof(this->num_...)], the size of one integer, instead of [sizeof(int)] times the number. *)
Definition t_copy (rhs : tilde) (h : heap) : hres (tilde * heap) :=
  hbind (new_table 1 (t_nc rhs) (fun h => load h (t_centers rhs)) h) (fun '(pc, h) =>
  hbind (new_table 1 (t_nn rhs) (fun h => load h (t_neighs rhs)) h) (fun '(pn, h) =>
  hbind (new_table (t_nc rhs) (t_nc rhs) (fun h => load h (t_ccounts rhs)) h) (fun '(qc, h) =>
  hbind (new_table (t_nn rhs) (t_nn rhs) (fun h => load h (t_ncounts rhs)) h) (fun '(qn, h) =>
  HOk ({| t_list := t_list rhs; t_nc := t_nc rhs; t_centers := pc; t_nn := t_nn rhs; t_neighs := pn; t_ccounts := qc; t_ncounts := qn;
          t_rcut := t_rcut rhs; t_smooth := t_smooth rhs |}, h))))).

(** A loop that assigns to two arrays in turn. *)
Definition two_tables (n : nat) (e f : heap -> nat -> hres Z) (h : heap) : hres (ptr * ptr * heap) :=
  let '(p, h) := malloc h n in
  let '(q, h) := malloc h n in
  hbind (hfold (fun h ii => hbind (e h ii) (fun v => hbind (store h p ii v) (fun h => hbind (f h ii) (fun w => store h q ii w)))) (seq 0 n) h)
    (fun h => HOk (p, q, h)).

(** se.h:1518-1527: the first part of the assignment; the pointers keep their values. *)
Definition t_clear (this : tilde) (h : heap) : hres (tilde * heap) :=
  if t_nc this =? 0 then HOk (this, h) else
  hbind (hfree h (t_centers this)) (fun h =>
  hbind (hfree h (t_ccounts this)) (fun h =>
  hbind (hfree h (t_neighs this)) (fun h =>
  hbind (hfree h (t_ncounts this)) (fun h =>
  HOk ({| t_list := t_list this; t_nc := 0; t_centers := t_centers this; t_nn := 0; t_neighs := t_neighs this;
          t_ccounts := t_ccounts this; t_ncounts := t_ncounts this; t_rcut := t_rcut this; t_smooth := t_smooth this |}, h))))).
(** se.h:1529-1555: the second part. *)
Definition t_take (this rhs : tilde) (h : heap) : hres (tilde * heap) :=
  hbind (if t_nc rhs =? 0 then HOk (t_centers this, t_ccounts this, h)
         else two_tables (t_nc rhs) (fun h => load h (t_centers rhs)) (fun h => load h (t_ccounts rhs)) h) (fun '(pc, qc, h) =>
  hbind (if t_nn rhs =? 0 then HOk (t_neighs this, t_ncounts this, h)
         else two_tables (t_nn rhs) (fun h => load h (t_neighs rhs)) (fun h => load h (t_ncounts rhs)) h) (fun '(pn, qn, h) =>
  HOk ({| t_list := t_list rhs; t_nc := t_nc rhs; t_centers := pc; t_nn := t_nn rhs; t_neighs := pn; t_ccounts := qc; t_ncounts := qn;
          t_rcut := t_rcut rhs; t_smooth := t_smooth rhs |}, h))).

(** se.h:1559-1572 *)
Definition t_destroy (o : tilde) (h : heap) : hres heap :=
  hbind (if t_nc o =? 0 then HOk h else hbind (hfree h (t_centers o)) (fun h => hfree h (t_ccounts o))) (fun h =>
  if t_nn o =? 0 then HOk h else hbind (hfree h (t_neighs o)) (fun h => hfree h (t_ncounts o))).

(** se.h:1645-1681, [show], with 1621-1641, [get_num_center_atoms] and [get_num_neigh_atoms]: the
    numbers printed; [None] for an object without central species. *)
Definition read_table (p : ptr) (n : nat) (h : heap) : hres (list Z) :=
  hfold (fun out ii => hbind (load h p ii) (fun v => HOk (out ++ [v]))) (seq 0 n) [].
Definition add_up (p : ptr) (n : nat) (h : heap) : hres Z :=
  hfold (fun s ii => hbind (load h p ii) (fun v => HOk (s + v)%Z)) (seq 0 n) 0%Z.
Record summary : Type := { s_centers : list Z; s_neighs : list Z; s_rcut : Z; s_smooth : Z; s_ccounts : list Z; s_ncounts : list Z;
                           s_shape : Z * Z }.
Definition t_show (o : tilde) (h : heap) : hres (option summary) :=
  if t_nc o =? 0 then HOk None else
  hbind (read_table (t_centers o) (t_nc o) h) (fun cs =>
  hbind (read_table (t_neighs o) (t_nn o) h) (fun ns =>
  hbind (read_table (t_ccounts o) (t_nc o) h) (fun kc =>
  hbind (read_table (t_ncounts o) (t_nn o) h) (fun kn =>
  hbind (add_up (t_ccounts o) (t_nc o) h) (fun a =>
  hbind (add_up (t_ncounts o) (t_nn o) h) (fun b =>
  HOk (Some {| s_centers := cs; s_neighs := ns; s_rcut := t_rcut o; s_smooth := t_smooth o; s_ccounts := kc; s_ncounts := kn;
               s_shape := (a, b) |}))))))).

(** Programs over the objects of numbered variables. *)
Inductive tcommand : Type :=
  | TDefault (x : nat)
  | TMake (x : nat) (nl : nlist) (cs ns : list Z) (counts : option (list Z)) (smooth : Z)
  | TCopy (x y : nat)
  | TAssign (x y : nat)
  | TDestroy (x : nat).
Definition tstore : Type := list (option tilde) * heap.
Definition tobject (st : list (option tilde)) (x : nat) : hres tilde :=
  match nth_error st x with Some (Some o) => HOk o | _ => HErr NoObject end.
Definition tconstruct (x : nat) (r : heap -> hres (tilde * heap)) (s : tstore) : hres tstore :=
  match nth_error (fst s) x with
  | Some None => hbind (r (snd s)) (fun '(o, h) => HOk (replace (fst s) x (Some o), h))
  | _ => HErr NoObject
  end.
(** se.h:1518-1555: the target is cleared before the source, perhaps the same object, is looked at;
    1529: a neighbour list with atoms assigned to itself. *)
Definition tassign (x y : nat) (s : tstore) : hres tstore :=
  hbind (tobject (fst s) x) (fun this =>
  hbind (t_clear this (snd s)) (fun '(this, h) =>
  let st := replace (fst s) x (Some this) in
  hbind (tobject st y) (fun rhs =>
  if (x =? y) && negb (length (nl_lists (t_list rhs)) =? 0) then HErr UseAfterFree else
  hbind (t_take this rhs h) (fun '(o, h) => HOk (replace st x (Some o), h))))).
Definition tstep (c : tcommand) (s : tstore) : hres tstore :=
  match c with
  | TDefault x => tconstruct x (fun h => HOk (t_default, h)) s
  | TMake x nl cs ns counts smooth => tconstruct x (t_make nl cs ns counts smooth) s
  | TCopy x y => hbind (tobject (fst s) y) (fun rhs => tconstruct x (t_copy rhs) s)
  | TAssign x y => tassign x y s
  | TDestroy x => hbind (tobject (fst s) x) (fun o => hbind (t_destroy o (snd s)) (fun h => HOk (replace (fst s) x None, h)))
  end.
Fixpoint trun (l : list tcommand) (s : tstore) : hres tstore :=
  match l with [] => HOk s | c :: r => hbind (tstep c s) (trun r) end.
Definition tstart (vars : nat) : tstore := (repeat None vars, []).
