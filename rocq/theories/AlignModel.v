(** Model of source/core/include/AlignedArray.h.
    Addresses and sizes are integers (no wrap-around).  The heap is the list of all blocks ever
    allocated: address, length in bytes, still allocated or not.  The address of each new block
    is chosen by the allocator and given with the operation; [None] is an allocation that throws. *)
From Verif Require Export HeapModel.
From Coq Require Export ZArith.
Open Scope Z_scope.

Definition blocks : Type := list (Z * Z * bool).
Definition amalloc (h : blocks) (addr len : Z) : nat * blocks := (length h, h ++ [(addr, len, true)]).
Definition adelete (h : blocks) (p : option nat) : hres blocks :=
  match p with
  | None => HOk h
  | Some b => match nth_error h b with
              | Some (a, n, true) => HOk (replace h b (a, n, false))
              | Some (_, _, false) => HErr DoubleFree
              | None => HErr BadFree
              end
  end.

(** AlignedArray.h:93-95; [elem] is sizeof(T). *)
Record array := { elem : Z; data_size : Z; base_ptr : option nat; data : Z }.

(** AlignedArray.h:105-107: 15 is added to the address and the last four bits are cleared. *)
Definition aligned (base : Z) : Z := Z.land (base + 15) (Z.lnot 15).

(** AlignedArray.h:102-108, [allocate].  [new char[n]] throws for a negative size or when
    the allocator has no memory; then only the size has been set.  The boolean says whether
    an exception was thrown. *)
Definition allocate (h : blocks) (a : array) (size : Z) (addr : option Z) : array * blocks * bool :=
  match addr with
  | Some x =>
    if size <? 0 then ({| elem := elem a; data_size := size; base_ptr := base_ptr a; data := data a |}, h, true)
    else let '(b, h) := amalloc h x (elem a * size + 15) in
         ({| elem := elem a; data_size := size; base_ptr := Some b; data := aligned x |}, h, false)
  | None => ({| elem := elem a; data_size := size; base_ptr := base_ptr a; data := data a |}, h, true)
  end.

(** AlignedArray.h:69-75, [resize]. *)
Definition resize (h : blocks) (a : array) (size : Z) (addr : option Z) : hres (array * blocks * bool) :=
  if data_size a =? size then HOk (a, h, false)
  else hbind (adelete h (base_ptr a)) (fun h => HOk (allocate h a size addr)).

Definition arrays : Type := nat -> option array.
Definition put_array (os : arrays) (i : nat) (o : option array) : arrays := fun k => if (k =? i)%nat then o else os k.
Definition aworld : Type := (arrays * blocks)%type.
Definition arr (os : arrays) (i : nat) : hres array := match os i with Some a => HOk a | None => HErr NoObject end.

(** Operations: the two constructors (lines 37-47), [resize], the destructor (52-54), and the
    copy constructor the compiler provides (the class declares none). *)
Inductive aop : Type :=
| ANew (i : nat) (s : Z)
| ANewSize (i : nat) (s size : Z) (addr : option Z)
| AResize (i : nat) (size : Z) (addr : option Z)
| ACopy (i j : nat)
| ADestroy (i : nat).

Definition astep (w : aworld) (o : aop) : hres aworld :=
  let '(os, h) := w in
  match o with
  | ANew i s => HOk (put_array os i (Some {| elem := s; data_size := 0; base_ptr := None; data := 0 |}), h)
  | ANewSize i s size addr =>
      let '(a, h, thrown) := allocate h {| elem := s; data_size := 0; base_ptr := None; data := 0 |} size addr in
      if thrown then HOk (os, h) else HOk (put_array os i (Some a), h)
  | AResize i size addr => hbind (arr os i) (fun a => hbind (resize h a size addr) (fun '(a, h, _) => HOk (put_array os i (Some a), h)))
  | ACopy i j => hbind (arr os j) (fun a => HOk (put_array os i (Some a), h))
  | ADestroy i => hbind (arr os i) (fun a => hbind (adelete h (base_ptr a)) (fun h => HOk (put_array os i None, h)))
  end.
Definition arun (w : aworld) (l : list aop) : hres aworld := hfold astep l w.

(** AlignedArray.h:59-61 and 80-89: the observable size and the address of element [k]. *)
Definition size_of (w : aworld) (i : nat) : hres Z := hbind (arr (fst w) i) (fun a => HOk (data_size a)).
Definition element_address (w : aworld) (i : nat) (k : Z) : hres Z := hbind (arr (fst w) i) (fun a => HOk (data a + elem a * k)).
