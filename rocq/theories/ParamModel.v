(** Model of source/descriptor/mtpr/src/mtpParam.cc: construction, copying, moving and
    destruction of potential parameters.
    Simplified: counts are natural numbers; the rows [int[4]] are laid out as four cells each,
    as in C; objects are named by numbers, an unnamed number holds no object; the file is
    already parsed (the reader only fills the tables it allocates). *)
From Verif Require Export HeapModel.
Open Scope nat_scope.

(** mtpParam.h:64-71, the members. *)
Record param := {
  moments_count : Z;
  basic_count : nat; basic : ptr;
  times_count : nat; times : ptr;
  scalar_count : nat; mapping : ptr
}.

Definition objects : Type := nat -> option param.
Definition put_obj (os : objects) (i : nat) (o : option param) : objects := fun k => if k =? i then o else os k.
Definition world : Type := (objects * heap)%type.

Definition obj (os : objects) (i : nat) : hres param := match os i with Some o => HOk o | None => HErr NoObject end.

(** mtpParam.cc:12-21, the default constructor (also the member initialisers of mtpParam.h). *)
Definition empty_param : param :=
  {| moments_count := 0; basic_count := 0; basic := None; times_count := 0; times := None; scalar_count := 0; mapping := None |}.

(** Filling a fresh block cell by cell from values. *)
Definition fill (h : heap) (p : ptr) (vs : list Z) : hres heap :=
  hfold (fun h i => store h p i (nth i vs 0%Z)) (seq 0 (length vs)) h.

(** mtpParam.cc:28-128, [_load], from the values it has read: tables of [nb] and [nt] rows
    and [ns] mapping entries.  The times table is allocated only when it has rows (lines 85-86). *)
Definition load_param (h : heap) (mc : Z) (vb vt vm : list Z) (nb nt ns : nat) : hres (param * heap) :=
  let '(pb, h) := malloc h (4 * nb) in
  hbind (fill h pb vb) (fun h =>
  let '(pt, h) := if nt =? 0 then (None, h) else malloc h (4 * nt) in
  hbind (if nt =? 0 then HOk h else fill h pt vt) (fun h =>
  let '(pm, h) := malloc h ns in
  hbind (fill h pm vm) (fun h =>
  HOk ({| moments_count := mc; basic_count := nb; basic := pb; times_count := nt; times := pt; scalar_count := ns; mapping := pm |}, h)))).

(** The loops copying [n] rows of four (mtpParam.cc:136-142, 145-151, 200-206, 210-216). *)
Definition copy_rows (h : heap) (dst src : ptr) (n : nat) : hres heap :=
  hfold (fun h ii =>
    hbind (load h src (4 * ii + 0)) (fun v => hbind (store h dst (4 * ii + 0) v) (fun h =>
    hbind (load h src (4 * ii + 1)) (fun v => hbind (store h dst (4 * ii + 1) v) (fun h =>
    hbind (load h src (4 * ii + 2)) (fun v => hbind (store h dst (4 * ii + 2) v) (fun h =>
    hbind (load h src (4 * ii + 3)) (fun v => store h dst (4 * ii + 3) v)))))))) (seq 0 n) h.
(** mtpParam.cc:154-155, 220-221. *)
Definition copy_cells (h : heap) (dst src : ptr) (n : nat) : hres heap :=
  hfold (fun h ii => hbind (load h src ii) (fun v => store h dst ii v)) (seq 0 n) h.

(** mtpParam.cc:131-156, the copy constructor. *)
Definition copy_param (h : heap) (rhs : param) : hres (param * heap) :=
  let '(pb, h) := malloc h (4 * basic_count rhs) in
  hbind (copy_rows h pb (basic rhs) (basic_count rhs)) (fun h =>
  let '(pt, h) := malloc h (4 * times_count rhs) in
  hbind (copy_rows h pt (times rhs) (times_count rhs)) (fun h =>
  let '(pm, h) := malloc h (scalar_count rhs) in
  hbind (copy_cells h pm (mapping rhs) (scalar_count rhs)) (fun h =>
  HOk ({| moments_count := moments_count rhs; basic_count := basic_count rhs; basic := pb;
          times_count := times_count rhs; times := pt; scalar_count := scalar_count rhs; mapping := pm |}, h)))).

(** mtpParam.cc:180-192 and 228-240: release what the target holds; the pointers keep their values. *)
Definition release (h : heap) (o : param) : hres (param * heap) :=
  hbind (if basic_count o =? 0 then HOk h else hfree h (basic o)) (fun h =>
  hbind (if times_count o =? 0 then HOk h else hfree h (times o)) (fun h =>
  hbind (if scalar_count o =? 0 then HOk h else hfree h (mapping o)) (fun h =>
  HOk ({| moments_count := 0; basic_count := 0; basic := basic o; times_count := 0; times := times o; scalar_count := 0; mapping := mapping o |}, h)))).

(** mtpParam.cc:178-223, copy assignment.  The source is looked up again after the release:
    when both names denote the same object it has just been emptied. *)
Definition copy_assign (w : world) (i j : nat) : hres world :=
  let '(os, h) := w in
  hbind (obj os i) (fun o =>
  hbind (obj os j) (fun _ =>
  hbind (release h o) (fun '(o, h) =>
  let os := put_obj os i (Some o) in
  hbind (obj os j) (fun rhs =>
  let '(pb, h) := if basic_count rhs =? 0 then (basic o, h) else malloc h (4 * basic_count rhs) in
  hbind (if basic_count rhs =? 0 then HOk h else copy_rows h pb (basic rhs) (basic_count rhs)) (fun h =>
  let '(pt, h) := if times_count rhs =? 0 then (times o, h) else malloc h (4 * times_count rhs) in
  hbind (if times_count rhs =? 0 then HOk h else copy_rows h pt (times rhs) (times_count rhs)) (fun h =>
  let '(pm, h) := if scalar_count rhs =? 0 then (mapping o, h) else malloc h (scalar_count rhs) in
  hbind (if scalar_count rhs =? 0 then HOk h else copy_cells h pm (mapping rhs) (scalar_count rhs)) (fun h =>
  HOk (put_obj os i (Some {| moments_count := moments_count rhs; basic_count := basic_count rhs; basic := pb;
                             times_count := times_count rhs; times := pt; scalar_count := scalar_count rhs; mapping := pm |}), h)))))))).

(** mtpParam.cc:158-176, the move constructor. *)
Definition move_construct (w : world) (i j : nat) : hres world :=
  let '(os, h) := w in
  hbind (obj os j) (fun rhs => HOk (put_obj (put_obj os i (Some rhs)) j (Some empty_param), h)).

(** mtpParam.cc:225-259, move assignment; line 246 takes the basic table for the times table. *)
Definition move_assign (w : world) (i j : nat) : hres world :=
  let '(os, h) := w in
  hbind (obj os i) (fun o =>
  hbind (obj os j) (fun rhs =>
  if i =? j then HOk w else
  hbind (release h o) (fun '(_, h) =>
  HOk (put_obj (put_obj os i (Some {| moments_count := moments_count rhs; basic_count := basic_count rhs; basic := basic rhs;
                                      times_count := times_count rhs; times := basic rhs;
                                      scalar_count := scalar_count rhs; mapping := mapping rhs |})) j (Some empty_param), h)))).

(** mtpParam.cc:261-266, the destructor. *)
Definition destroy (w : world) (i : nat) : hres world :=
  let '(os, h) := w in
  hbind (obj os i) (fun o =>
  hbind (hfree h (basic o)) (fun h =>
  hbind (hfree h (times o)) (fun h =>
  hbind (hfree h (mapping o)) (fun h =>
  HOk (put_obj os i None, h))))).

(** What a program can do with such objects. *)
Inductive op : Type :=
| New (i : nat)
| Load (i : nat) (mc : Z) (vb vt vm : list Z) (nb nt ns : nat)
| CopyNew (i j : nat)
| MoveNew (i j : nat)
| CopyAssign (i j : nat)
| MoveAssign (i j : nat)
| Destroy (i : nat).

Definition step (w : world) (o : op) : hres world :=
  let '(os, h) := w in
  match o with
  | New i => HOk (put_obj os i (Some empty_param), h)
  | Load i mc vb vt vm nb nt ns => hbind (load_param h mc vb vt vm nb nt ns) (fun '(o, h) => HOk (put_obj os i (Some o), h))
  | CopyNew i j => hbind (obj os j) (fun rhs => hbind (copy_param h rhs) (fun '(o, h) => HOk (put_obj os i (Some o), h)))
  | MoveNew i j => move_construct w i j
  | CopyAssign i j => copy_assign w i j
  | MoveAssign i j => move_assign w i j
  | Destroy i => destroy w i
  end.
Definition run_ops (w : world) (l : list op) : hres world := hfold step l w.

(** mtpParam.cc:269-290, 301-334: the values a user sees through [show] and the accessors. *)
Fixpoint read_cells (h : heap) (p : ptr) (i n : nat) : hres (list Z) :=
  match n with
  | 0 => HOk []
  | S m => hbind (load h p i) (fun v => hbind (read_cells h p (i + 1) m) (fun r => HOk (v :: r)))
  end.
Definition show (w : world) (i : nat) : hres (Z * list Z * list Z * list Z) :=
  let '(os, h) := w in
  hbind (obj os i) (fun o =>
  hbind (read_cells h (basic o) 0 (4 * basic_count o)) (fun b =>
  hbind (read_cells h (times o) 0 (4 * times_count o)) (fun t =>
  hbind (read_cells h (mapping o) 0 (scalar_count o)) (fun m =>
  HOk (moments_count o, b, t, m))))).
