(** Nested arrays: core/include/arrayUtils.h.
    The file has one [allocate], one [free] and one [show] for each of three, four and five
    dimensions; they repeat the same loop, one level deeper each time.  Here the loop is
    written once by recursion on the list of sizes; the three functions are its instances.
    Simplified: sizes are natural numbers (a negative size asks [malloc] for an enormous
    block), [malloc] never fails, an element is an integer, and a pointer stored in a cell is
    the number of its block. *)
From Verif Require Export HeapModel.

(** Reading a pointer out of a block. *)
Definition load_ptr (h : heap) (b i : nat) : hres nat := hbind (load h (Some b) i) (fun z => HOk (Z.to_nat z)).

(** arrayUtils.h:31-36, 86-94, 146-157: the loops that allocate the inner levels of block [b]. *)
Fixpoint fill (dims : list nat) (h : heap) (b : nat) : hres heap :=
  match dims with
  | n :: r =>
      match r with
      | [] => HOk h
      | m :: _ =>
          hfold (fun h ii =>
            let h1 := h ++ [Some (repeat None m)] in
            hbind (store h1 (Some b) ii (Z.of_nat (length h))) (fun h2 =>
            hbind (load_ptr h2 b ii) (fun q => fill r h2 q))) (seq 0 n) h
      end
  | [] => HOk h
  end.

(** arrayUtils.h:38-45, 96-105, 159-170: the loops under [init_mark]. *)
Fixpoint clear (dims : list nat) (h : heap) (b : nat) : hres heap :=
  match dims with
  | n :: r =>
      match r with
      | [] => hfold (fun h kk => store h (Some b) kk 0) (seq 0 n) h
      | _ :: _ => hfold (fun h ii => hbind (load_ptr h b ii) (fun q => clear r h q)) (seq 0 n) h
      end
  | [] => HOk h
  end.

(** arrayUtils.h:29-48, 85-109, 138-173. *)
Definition allocate_nested (dims : list nat) (init_mark : bool) (h : heap) : hres (nat * heap) :=
  let b := length h in
  let h := h ++ [Some (repeat None (hd 0%nat dims))] in
  hbind (fill dims h b) (fun h =>
  hbind (if init_mark then clear dims h b else HOk h) (fun h => HOk (b, h))).

(** arrayUtils.h:60-67, 113-123, 177-196; the innermost size is no argument. *)
Fixpoint free_nested (dims : list nat) (h : heap) (b : nat) : hres heap :=
  match dims with
  | [] => hfree h (Some b)
  | n :: r =>
      hbind (hfold (fun h ii => hbind (load_ptr h b ii) (fun q => free_nested r h q)) (seq 0 n) h) (fun h => hfree h (Some b))
  end.

Definition allocate3dArray (n0 n1 n2 : nat) (init : bool) (h : heap) := allocate_nested [n0; n1; n2] init h.
Definition allocate4dArray (n0 n1 n2 n3 : nat) (init : bool) (h : heap) := allocate_nested [n0; n1; n2; n3] init h.
Definition allocate5dArray (n0 n1 n2 n3 n4 : nat) (init : bool) (h : heap) := allocate_nested [n0; n1; n2; n3; n4] init h.
Definition free3dArray (b n0 n1 : nat) (h : heap) := free_nested [n0; n1] h b.
Definition free4dArray (b n0 n1 n2 : nat) (h : heap) := free_nested [n0; n1; n2] h b.
Definition free5dArray (b n0 n1 n2 n3 : nat) (h : heap) := free_nested [n0; n1; n2; n3] h b.

(** The expressions [p[i][j]...] and [p[i][j]... = v] of the callers, and of
    arrayUtils.h:71-79 ([show3dArray]), 127-136, 200-220. *)
Fixpoint read_at (h : heap) (b : nat) (idx : list nat) : hres Z :=
  match idx with
  | [] => HErr OutOfBounds
  | i :: r => match r with [] => load h (Some b) i | _ :: _ => hbind (load_ptr h b i) (fun q => read_at h q r) end
  end.
Fixpoint write_at (h : heap) (b : nat) (idx : list nat) (v : Z) : hres heap :=
  match idx with
  | [] => HErr OutOfBounds
  | i :: r => match r with [] => store h (Some b) i v | _ :: _ => hbind (load_ptr h b i) (fun q => write_at h q r v) end
  end.
Fixpoint writes (h : heap) (b : nat) (l : list (list nat * Z)) : hres heap :=
  match l with [] => HOk h | (idx, v) :: r => hbind (write_at h b idx v) (fun h => writes h b r) end.

(** arrayUtils.h:71-79, 127-136, 200-220: the printed pairs of index and element, in order. *)
Fixpoint show_nested (dims : list nat) (h : heap) (b : nat) : hres (list (list nat * Z)) :=
  match dims with
  | [] => HErr OutOfBounds
  | n :: r =>
      hfold (fun out ii =>
        match r with
        | [] => hbind (load h (Some b) ii) (fun v => HOk (out ++ [([ii], v)]))
        | _ :: _ => hbind (load_ptr h b ii) (fun q => hbind (show_nested r h q) (fun s => HOk (out ++ map (fun e => (ii :: fst e, snd e)) s)))
        end) (seq 0 n) []
  end.
