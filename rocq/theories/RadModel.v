(** Memory of the radial functions of the moment descriptors:
    source/descriptor/mtpr/include/basis.h ([RB_Chebyshev], [RQ_Chebyshev]) and
    source/descriptor/mtp/include/mtpMRadial.h ([ChebyshevPoly], [MtpQ]).

    Each class has constructors, a copy and a move constructor, two assignment operators, a
    destructor and a method [build] that fills its arrays for a distance.  A program is a list of
    these over a fixed number of variables.

    Numbers are of an arbitrary type with arbitrary operations; RadNum puts real numbers and the
    operations of the code in their place.  Simplified: [malloc] never fails and returns a new block
    also for size 0; blocks are never reused, so every use of freed memory is visible; sizes are not
    negative; the fields of an object behind a pointer (basis.h:115, [_rb_ptr]) are kept beside the
    pointer (no two objects ever share it) and the storage of that object is a block of its own.
    The assignment operators without a return statement (mtpMRadial.h:347-373, 509-525, 528-548,
    basis.h:227-253, 256-281, 443-471, 474-500), which are undefined behaviour, return here. *)
From Verif Require Export HeapModel.
Local Open Scope nat_scope.
Local Open Scope list_scope.

(** A pointer that was never set, the null pointer, the address of a block. *)
Inductive pointer : Type := Garbage | Null | At (b : nat).

Section Memory.
Variable V : Type.
Definition cells : Type := list (option V).
Definition memory : Type := list (option cells).
Definition alloc (n : nat) (h : memory) : pointer * memory := (At (length h), h ++ [Some (repeat None n)]).
Definition release (h : memory) (p : pointer) : hres memory :=
  match p with
  | Garbage => HErr Uninitialised
  | Null => HOk h
  | At b => match nth_error h b with
            | Some (Some _) => HOk (replace h b None)
            | Some None => HErr DoubleFree
            | None => HErr BadFree
            end
  end.
Definition cells_at (h : memory) (p : pointer) : hres cells :=
  match p with
  | Garbage => HErr Uninitialised
  | Null => HErr NullDeref
  | At b => match nth_error h b with
            | Some (Some c) => HOk c
            | Some None => HErr UseAfterFree
            | None => HErr OutOfBounds
            end
  end.
Definition read (h : memory) (p : pointer) (i : nat) : hres V :=
  hbind (cells_at h p) (fun c => match nth_error c i with Some (Some v) => HOk v | Some None => HErr Uninitialised | None => HErr OutOfBounds end).
Definition write (h : memory) (p : pointer) (i : nat) (v : V) : hres memory :=
  hbind (cells_at h p) (fun c =>
  match p with
  | At b => if i <? length c then HOk (replace h b (Some (replace c i (Some v)))) else HErr OutOfBounds
  | _ => HErr NullDeref
  end).
Definition release_all (ps : list pointer) (h : memory) : hres memory := hfold release ps h.
(** [malloc] of several arrays. *)
Fixpoint alloc_all (k n : nat) (h : memory) : list pointer * memory :=
  match k with
  | 0 => ([], h)
  | S k => let '(p, h) := alloc n h in let '(ps, h) := alloc_all k n h in (p :: ps, h)
  end.
(** The same number in every cell of every array. *)
Definition fill (v : V) (n : nat) (ps : list pointer) (h : memory) : hres memory :=
  hfold (fun h ii => hfold (fun h p => write h p ii v) ps h) (seq 0 n) h.
(** Cell by cell from arrays to arrays. *)
Definition copy_cells (n : nat) (to from : list pointer) (h : memory) : hres memory :=
  hfold (fun h ii => hfold (fun h tf => hbind (read h (snd tf) ii) (fun v => write h (fst tf) ii v)) (combine to from) h) (seq 0 n) h.
Definition read_array (h : memory) (n : nat) (p : pointer) : hres (list V) :=
  hfold (fun l ii => hbind (read h p ii) (fun v => HOk (l ++ [v]))) (seq 0 n) [].
Definition read_arrays (h : memory) (n : nat) (ps : list pointer) : hres (list (list V)) :=
  hfold (fun l p => hbind (read_array h n p) (fun a => HOk (l ++ [a]))) ps [].

(** What a user sees of an object: its size, its other fields with a method to ask for them, its
    arrays (none of size 0). *)
Definition view : Type := (nat * list V * list (list V))%type.
Definition look (n : nat) (fields : list V) (ps : list pointer) (h : memory) : hres view :=
  if n =? 0 then HOk (0, fields, []) else hbind (read_arrays h n ps) (fun a => HOk (n, fields, a)).

(** *** The operations of a class, and programs *)
Record class (O : Type) : Type := {
  c_default : O;
  c_make : nat -> V -> V -> memory -> hres (O * memory);
  c_copy : O -> memory -> hres (O * memory);
  (* the new object, and the other one afterwards *)
  c_move : O -> memory -> hres (O * O * memory);
  (* None: the right hand side is the object itself *)
  c_assign : O -> option O -> memory -> hres (O * memory);
  c_move_assign : O -> O -> memory -> hres (O * O * memory);
  c_build : O -> V -> memory -> hres (O * memory);
  c_destroy : O -> memory -> hres memory;
  c_look : O -> memory -> hres view }.

Inductive command : Type :=
  | Default (x : nat)
  | Make (x n : nat) (hi lo : V)
  | Copy (x y : nat)
  | Move (x y : nat)
  | Assign (x y : nat)
  | MoveAssign (x y : nat)
  | Build (x : nat) (r : V)
  | Destroy (x : nat).

Section Programs.
Variable O : Type.
Variable C : class O.
Definition state : Type := list (option O) * memory.
Definition object (s : state) (x : nat) : hres O := match nth_error (fst s) x with Some (Some o) => HOk o | _ => HErr NoObject end.
Definition vacant (s : state) (x : nat) : hres unit := match nth_error (fst s) x with Some None => HOk tt | _ => HErr NoObject end.
Definition put (s : list (option O)) (x : nat) (o : O) : list (option O) := replace s x (Some o).
Definition step (c : command) (s : state) : hres state :=
  match c with
  | Default x => hbind (vacant s x) (fun _ => HOk (put (fst s) x (c_default O C), snd s))
  | Make x n hi lo => hbind (vacant s x) (fun _ => hbind (c_make O C n hi lo (snd s)) (fun '(o, h) => HOk (put (fst s) x o, h)))
  | Copy x y => hbind (vacant s x) (fun _ => hbind (object s y) (fun r => hbind (c_copy O C r (snd s)) (fun '(o, h) => HOk (put (fst s) x o, h))))
  | Move x y => hbind (vacant s x) (fun _ => hbind (object s y) (fun r => hbind (c_move O C r (snd s)) (fun '(o, r, h) => HOk (put (put (fst s) x o) y r, h))))
  | Assign x y => hbind (object s x) (fun t => hbind (object s y) (fun r =>
      hbind (c_assign O C t (if x =? y then None else Some r) (snd s)) (fun '(o, h) => HOk (put (fst s) x o, h))))
  | MoveAssign x y => hbind (object s x) (fun t => hbind (object s y) (fun r =>
      if x =? y then HOk s else hbind (c_move_assign O C t r (snd s)) (fun '(o, r, h) => HOk (put (put (fst s) x o) y r, h))))
  | Build x r => hbind (object s x) (fun t => hbind (c_build O C t r (snd s)) (fun '(o, h) => HOk (put (fst s) x o, h)))
  | Destroy x => hbind (object s x) (fun t => hbind (c_destroy O C t (snd s)) (fun h => HOk (replace (fst s) x None, h)))
  end.
Fixpoint run (l : list command) (s : state) : hres state := match l with [] => HOk s | c :: r => hbind (step c s) (run r) end.
Definition start (n : nat) : state := (repeat None n, []).
Definition seen (s : state) (x : nat) : hres view := hbind (object s x) (fun o => c_look O C o (snd s)).
End Programs.

(** *** The classes *)
Section Numbers.
(** Constants; the recursions of values and derivatives; products and sums. *)
Variables zero one : V.
Variable vnext : V -> V -> V -> V.
Variable dnext : V -> V -> V -> V -> V.
Variables mul add : V -> V -> V.
(** Scaled distance and its derivative; where there are values; the switching function. *)
Variable scaled : V -> V -> V -> V.
Variable coeff : V -> V -> V.
Variables inside accepted : V -> V -> V -> bool.
Variables factor slope : V -> V -> V -> V.

(** basis.h:291-305 and mtpMRadial.h:380-397, one pass of the recursion. *)
Definition build_cell (u c : V) (pv pd pe : pointer) (h : memory) (ii : nat) : hres memory :=
  hbind (match ii with
         | 0 => HOk (one, zero)
         | 1 => HOk (u, one)
         | _ => hbind (read h pv (ii - 1)) (fun v1 => hbind (read h pv (ii - 2)) (fun v2 =>
                hbind (read h pd (ii - 1)) (fun d1 => hbind (read h pd (ii - 2)) (fun d2 => HOk (vnext u v1 v2, dnext u v1 d1 d2)))))
         end) (fun vd =>
  hbind (write h pv ii (fst vd)) (fun h => hbind (write h pd ii (snd vd)) (fun h =>
  hbind (read h pd ii) (fun x => write h pe ii (mul x c))))).

(** **** Polynomials, [RB_Chebyshev] and [ChebyshevPoly] *)
(** [b_inner] is the pair of radii of the scaling function, a field of its own in mtpMRadial.h:85; the class of basis.h has none. *)
Record basis : Type := { b_n : nat; b_inner : V * V; b_hi : V; b_lo : V; b_vals : pointer; b_ders : pointer; b_rders : pointer }.
Definition arrays (b : basis) : list pointer := [b_vals b; b_ders b; b_rders b].
Definition with_arrays (n : nat) (inner : V * V) (hi lo : V) (ps : list pointer) : basis :=
  {| b_n := n; b_inner := inner; b_hi := hi; b_lo := lo; b_vals := nth 0 ps Null; b_ders := nth 1 ps Null; b_rders := nth 2 ps Null |}.
(** basis.h:160-168, mtpMRadial.h:249 *)
Definition no_basis : basis := with_arrays 0 (zero, zero) zero zero [].
(** basis.h:171-185, mtpMRadial.h:252-267 *)
Definition make_basis (n : nat) (hi lo : V) (h : memory) : hres (basis * memory) :=
  let '(ps, h) := alloc_all 3 n h in hbind (fill zero n ps h) (fun h => HOk (with_arrays n (hi, lo) hi lo ps, h)).
(** basis.h:309-314, mtpMRadial.h:309-317: destructor. *)
Definition destroy_basis (b : basis) (h : memory) : hres memory := release_all (arrays b) h.
(** basis.h:207-224 and mtpMRadial.h:287-306: the fields are taken over, and this stays behind. *)
Definition moved_basis : basis := with_arrays 0 (zero, zero) zero zero [].

(** basis.h:188-204: nothing is allocated for size 0. *)
Definition copy_rb (r : basis) (h : memory) : hres (basis * memory) :=
  if b_n r =? 0 then HOk (with_arrays 0 (b_inner r) (b_hi r) (b_lo r) [], h) else
  let '(ps, h) := alloc_all 3 (b_n r) h in
  hbind (copy_cells (b_n r) ps (arrays r) h) (fun h => HOk (with_arrays (b_n r) (b_inner r) (b_hi r) (b_lo r) ps, h)).
(** basis.h:227-253: the pointers keep their values when the right hand side has size 0. *)
Definition assign_rb (t : basis) (rhs : option basis) (h : memory) : hres (basis * memory) :=
  hbind (if b_n t =? 0 then HOk h else release_all (arrays t) h) (fun h =>
  let t := if b_n t =? 0 then t else with_arrays 0 (b_inner t) zero zero (arrays t) in
  let r := match rhs with Some r => r | None => t end in
  if b_n r =? 0 then HOk (with_arrays 0 (b_inner r) (b_hi r) (b_lo r) (arrays t), h) else
  let '(ps, h) := alloc_all 3 (b_n r) h in
  hbind (copy_cells (b_n r) ps (arrays r) h) (fun h => HOk (with_arrays (b_n r) (b_inner r) (b_hi r) (b_lo r) ps, h))).
(** basis.h:256-281, mtpMRadial.h:347-373; not called for one and the same object. *)
Definition move_assign_basis (t r : basis) (h : memory) : hres (basis * basis * memory) :=
  hbind (if b_n t =? 0 then HOk h else release_all (arrays t) h) (fun h => HOk (r, with_arrays 0 (b_inner r) zero zero [], h)).
(** basis.h:285-306 *)
Definition build_rb (t : basis) (r : V) (h : memory) : hres (basis * memory) :=
  if accepted (b_hi t) (b_lo t) r then
    hbind (hfold (build_cell (scaled (b_hi t) (b_lo t) r) (coeff (b_hi t) (b_lo t)) (b_vals t) (b_ders t) (b_rders t)) (seq 0 (b_n t)) h) (fun h => HOk (t, h))
  else HErr Aborted.
Definition rb_class : class basis := {|
  c_default := no_basis; c_make := make_basis; c_copy := copy_rb; c_move := fun r h => HOk (r, moved_basis, h);
  c_assign := assign_rb; c_move_assign := move_assign_basis; c_build := build_rb; c_destroy := destroy_basis;
  c_look := fun t => look (b_n t) [b_hi t; b_lo t] (arrays t) |}.

(** mtpMRadial.h:270-284: arrays are allocated for every size. *)
Definition copy_poly (r : basis) (h : memory) : hres (basis * memory) :=
  let '(ps, h) := alloc_all 3 (b_n r) h in
  hbind (copy_cells (b_n r) ps (arrays r) h) (fun h => HOk (with_arrays (b_n r) (b_inner r) (b_hi r) (b_lo r) ps, h)).
(** mtpMRadial.h:320-344 *)
Definition assign_poly (t : basis) (rhs : option basis) (h : memory) : hres (basis * memory) :=
  hbind (if b_n t =? 0 then HOk h else release_all (arrays t) h) (fun h =>
  let t := if b_n t =? 0 then t else with_arrays 0 (b_inner t) zero zero (arrays t) in
  copy_poly (match rhs with Some r => r | None => t end) h).
(** mtpMRadial.h:376-404 *)
Definition build_poly (t : basis) (r : V) (h : memory) : hres (basis * memory) :=
  if inside (b_hi t) (b_lo t) r then
    hbind (hfold (build_cell (scaled (fst (b_inner t)) (snd (b_inner t)) r) (coeff (fst (b_inner t)) (snd (b_inner t))) (b_vals t) (b_ders t) (b_rders t)) (seq 0 (b_n t)) h) (fun h => HOk (t, h))
  else hbind (fill zero (b_n t) (arrays t) h) (fun h => HOk (t, h)).
Definition poly_class : class basis := {|
  c_default := no_basis; c_make := make_basis; c_copy := copy_poly; c_move := fun r h => HOk (r, moved_basis, h);
  c_assign := assign_poly; c_move_assign := move_assign_basis; c_build := build_poly; c_destroy := destroy_basis;
  c_look := fun t => look (b_n t) [] (arrays t) |}.

(** **** Radial functions *)
(** [MtpQ], mtpMRadial.h:122-126, 454; the two pointers have no initial value. *)
Record mtp_q : Type := { q_n : nat; q_inner : V * V; q_poly : basis; q_vals : pointer; q_ders : pointer }.
Definition no_q : mtp_q := {| q_n := 0; q_inner := (zero, zero); q_poly := no_basis; q_vals := Garbage; q_ders := Garbage |}.
(** mtpMRadial.h:457-466: the member is assigned from a temporary object, which is destroyed. *)
Definition make_q (n : nat) (hi lo : V) (h : memory) : hres (mtp_q * memory) :=
  hbind (make_basis n hi lo h) (fun '(tmp, h) => hbind (move_assign_basis no_basis tmp h) (fun '(p, tmp, h) => hbind (destroy_basis tmp h) (fun h =>
  let '(ps, h) := alloc_all 2 n h in
  hbind (fill zero n ps h) (fun h => HOk ({| q_n := n; q_inner := (hi, lo); q_poly := p; q_vals := nth 0 ps Null; q_ders := nth 1 ps Null |}, h))))).
(** The member gets the value of a new empty object. *)
Definition clear_poly (p : basis) (h : memory) : hres (basis * memory) :=
  hbind (move_assign_basis p no_basis h) (fun '(p, tmp, h) => hbind (destroy_basis tmp h) (fun h => HOk (p, h))).
(** The second half of the copies: arrays of the size of [r], copied. *)
Definition copy_q_into (p : basis) (r : mtp_q) (h : memory) : hres (mtp_q * memory) :=
  let '(ps, h) := alloc_all 2 (q_n r) h in
  hbind (copy_cells (q_n r) ps [q_vals r; q_ders r] h) (fun h =>
  HOk ({| q_n := q_n r; q_inner := q_inner r; q_poly := p; q_vals := nth 0 ps Null; q_ders := nth 1 ps Null |}, h)).
(** mtpMRadial.h:469-480 *)
Definition copy_q (r : mtp_q) (h : memory) : hres (mtp_q * memory) :=
  hbind (assign_poly no_basis (Some (q_poly r)) h) (fun '(p, h) => copy_q_into p r h).
(** mtpMRadial.h:483-498; the member is copied, then emptied in the other object. *)
Definition move_q (r : mtp_q) (h : memory) : hres (mtp_q * mtp_q * memory) :=
  hbind (assign_poly no_basis (Some (q_poly r)) h) (fun '(p, h) => hbind (clear_poly (q_poly r) h) (fun '(p', h) =>
  HOk ({| q_n := q_n r; q_inner := q_inner r; q_poly := p; q_vals := q_vals r; q_ders := q_ders r |},
       {| q_n := 0; q_inner := (zero, zero); q_poly := p'; q_vals := Null; q_ders := Null |}, h))).
(** mtpMRadial.h:509-525 *)
Definition assign_q (t : mtp_q) (rhs : option mtp_q) (h : memory) : hres (mtp_q * memory) :=
  hbind (if q_n t =? 0 then HOk h else release_all [q_vals t; q_ders t] h) (fun h =>
  let t := {| q_n := 0; q_inner := q_inner t; q_poly := q_poly t; q_vals := q_vals t; q_ders := q_ders t |} in
  hbind (assign_poly (q_poly t) (option_map q_poly rhs) h) (fun '(p, h) => copy_q_into p (match rhs with Some r => r | None => t end) h)).
(** mtpMRadial.h:528-548 *)
Definition move_assign_q (t r : mtp_q) (h : memory) : hres (mtp_q * mtp_q * memory) :=
  hbind (if q_n t =? 0 then HOk h else release_all [q_vals t; q_ders t] h) (fun h =>
  hbind (assign_poly (q_poly t) (Some (q_poly r)) h) (fun '(p, h) => hbind (clear_poly (q_poly r) h) (fun '(p', h) =>
  HOk ({| q_n := q_n r; q_inner := q_inner r; q_poly := p; q_vals := q_vals r; q_ders := q_ders r |},
       {| q_n := 0; q_inner := (zero, zero); q_poly := p'; q_vals := Null; q_ders := Null |}, h)))).
(** mtpMRadial.h:501-506; the member is destroyed after the body. *)
Definition destroy_q (t : mtp_q) (h : memory) : hres memory :=
  hbind (release_all [q_vals t; q_ders t] h) (destroy_basis (q_poly t)).
(** mtpMRadial.h:551-562 *)
Definition build_q (t : mtp_q) (r : V) (h : memory) : hres (mtp_q * memory) :=
  let f := factor (fst (q_inner t)) (snd (q_inner t)) r in
  let s := slope (fst (q_inner t)) (snd (q_inner t)) r in
  hbind (build_poly (q_poly t) r h) (fun '(p, h) =>
  hbind (hfold (fun h ii =>
    hbind (read h (b_vals p) ii) (fun v => hbind (write h (q_vals t) ii (mul v f)) (fun h =>
    hbind (read h (b_rders p) ii) (fun d => hbind (read h (b_vals p) ii) (fun v => write h (q_ders t) ii (add (mul d f) (mul v s))))))) (seq 0 (q_n t)) h) (fun h =>
  HOk ({| q_n := q_n t; q_inner := q_inner t; q_poly := p; q_vals := q_vals t; q_ders := q_ders t |}, h))).
Definition q_class : class mtp_q := {|
  c_default := no_q; c_make := make_q; c_copy := copy_q; c_move := move_q;
  c_assign := assign_q; c_move_assign := move_assign_q; c_build := build_q; c_destroy := destroy_q;
  c_look := fun t => look (q_n t) [] [q_vals t; q_ders t] |}.

(** [RQ_Chebyshev], basis.h:111-117; [r_basis] is the pointer to the polynomials with the fields behind it. *)
Record rq : Type := { r_n : nat; r_hi : V; r_lo : V; r_inner : V * V; r_basis : option (nat * basis); r_vals : pointer; r_ders : pointer }.
(** basis.h:372-380 *)
Definition no_rq : rq := {| r_n := 0; r_hi := zero; r_lo := zero; r_inner := (zero, zero); r_basis := None; r_vals := Null; r_ders := Null |}.
(** [new]: storage for the object. *)
Definition storage (h : memory) : nat * memory := (length h, h ++ [Some [None]]).
(** [delete] *)
Definition delete_basis (p : option (nat * basis)) (h : memory) : hres memory :=
  match p with None => HOk h | Some (b, o) => hbind (destroy_basis o h) (fun h => release h (At b)) end.
(** basis.h:383-397 *)
Definition make_rq (n : nat) (hi lo : V) (h : memory) : hres (rq * memory) :=
  let '(b, h) := storage h in
  hbind (make_basis n hi lo h) (fun '(o, h) =>
  let '(ps, h) := alloc_all 2 n h in
  hbind (fill zero n ps h) (fun h =>
  HOk ({| r_n := n; r_hi := hi; r_lo := lo; r_inner := (hi, lo); r_basis := Some (b, o); r_vals := nth 0 ps Null; r_ders := nth 1 ps Null |}, h))).
(** basis.h:400-419, and 453-470 after the old memory was given back: a new empty object behind the
    pointer is assigned from the one of the right hand side. *)
Definition copy_rq (r : rq) (h : memory) : hres (rq * memory) :=
  let '(b, h) := storage h in
  match r_basis r with
  | None => HErr NullDeref
  | Some (_, rb) =>
      hbind (assign_rb no_basis (Some rb) h) (fun '(o, h) =>
      if r_n r =? 0 then HOk ({| r_n := 0; r_hi := r_hi r; r_lo := r_lo r; r_inner := r_inner r; r_basis := Some (b, o); r_vals := Null; r_ders := Null |}, h) else
      let '(ps, h) := alloc_all 2 (r_n r) h in
      hbind (copy_cells (r_n r) ps [r_vals r; r_ders r] h) (fun h =>
      HOk ({| r_n := r_n r; r_hi := r_hi r; r_lo := r_lo r; r_inner := r_inner r; r_basis := Some (b, o); r_vals := nth 0 ps Null; r_ders := nth 1 ps Null |}, h)))
  end.
Definition drop_rq (t : rq) (h : memory) : hres memory :=
  if r_n t =? 0 then HOk h else hbind (delete_basis (r_basis t) h) (release_all [r_vals t; r_ders t]).
(** basis.h:443-471; to itself: the new empty object is assigned to itself and the size is 0. *)
Definition assign_rq (t : rq) (rhs : option rq) (h : memory) : hres (rq * memory) :=
  hbind (drop_rq t h) (fun h =>
  match rhs with
  | Some r => copy_rq r h
  | None =>
      let '(b, h) := storage h in
      hbind (assign_rb no_basis None h) (fun '(o, h) =>
      let keep := r_n t =? 0 in
      HOk ({| r_n := 0; r_hi := if keep then r_hi t else zero; r_lo := if keep then r_lo t else zero; r_inner := r_inner t; r_basis := Some (b, o); r_vals := Null; r_ders := Null |}, h))
  end).
(** basis.h:422-440 *)
Definition moved_rq (r : rq) : rq := {| r_n := 0; r_hi := zero; r_lo := zero; r_inner := r_inner r; r_basis := None; r_vals := Null; r_ders := Null |}.
(** basis.h:474-500 *)
Definition move_assign_rq (t r : rq) (h : memory) : hres (rq * rq * memory) := hbind (drop_rq t h) (fun h => HOk (r, moved_rq r, h)).
(** basis.h:518-523 *)
Definition destroy_rq (t : rq) (h : memory) : hres memory := hbind (delete_basis (r_basis t) h) (release_all [r_vals t; r_ders t]).
(** basis.h:504-515; the switching function has assertions of its own (it is asked only if the
    size is not 0). *)
Definition build_rq (t : rq) (r : V) (h : memory) : hres (rq * memory) :=
  if accepted (r_hi t) (r_lo t) r then
    match r_basis t with
    | None => HErr NullDeref
    | Some (b, o) =>
        hbind (build_rb o r h) (fun '(o, h) =>
        if negb (r_n t =? 0) && negb (accepted (fst (r_inner t)) (snd (r_inner t)) r) then HErr Aborted else
        let f := factor (fst (r_inner t)) (snd (r_inner t)) r in
        let s := slope (fst (r_inner t)) (snd (r_inner t)) r in
        hbind (hfold (fun h ii =>
          hbind (read h (b_vals o) ii) (fun v => hbind (write h (r_vals t) ii (mul f v)) (fun h =>
          hbind (read h (b_vals o) ii) (fun v => hbind (read h (b_rders o) ii) (fun d => write h (r_ders t) ii (add (mul s v) (mul f d))))))) (seq 0 (r_n t)) h) (fun h =>
        HOk ({| r_n := r_n t; r_hi := r_hi t; r_lo := r_lo t; r_inner := r_inner t; r_basis := Some (b, o); r_vals := r_vals t; r_ders := r_ders t |}, h)))
    end
  else HErr Aborted.
Definition rq_class : class rq := {|
  c_default := no_rq; c_make := make_rq; c_copy := copy_rq; c_move := fun r h => HOk (r, moved_rq r, h);
  c_assign := assign_rq; c_move_assign := move_assign_rq; c_build := build_rq; c_destroy := destroy_rq;
  c_look := fun t => look (r_n t) [r_hi t; r_lo t] [r_vals t; r_ders t] |}.
End Numbers.
End Memory.
