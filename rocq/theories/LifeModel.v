(** Memory of the C++ structures: nblist/include/structure.h.
    An object has a number of atoms and four pointers; a pointer that was never assigned is
    [None].  The tables of three columns are nested arrays (NestModel).  A program is a list
    of constructions, copies, assignments, enlargements and destructions of the objects of a
    fixed number of variables.
    Simplified: a number of atoms is a natural number (a negative one asks [malloc] for an
    enormous block), coordinates are integers (they are only moved, added and multiplied),
    the arguments of a constructor are lists, [malloc] never fails. *)
From Verif Require Export NestModel.
Open Scope nat_scope.

Record obj : Type := { o_n : nat; o_basis : option nat; o_origin : option nat; o_numbers : option nat; o_coords : option nat }.

Definition deref {A} (p : option nat) (k : nat -> hres A) : hres A :=
  match p with Some b => k b | None => HErr Uninitialised end.

(** The indices of loops over ranges, the last one innermost. *)
Fixpoint loops (dims : list nat) : list (list nat) :=
  match dims with
  | [] => [[]]
  | n :: r => flat_map (fun i => map (cons i) (loops r)) (seq 0 n)
  end.
(** A sequence of assignments [b[idx] = expression]. *)
Definition assigns (l : list (list nat * (heap -> hres Z))) (b : nat) (h : heap) : hres heap :=
  hfold (fun h a => hbind (snd a h) (fun v => write_at h b (fst a) v)) l h.
(** The memory of an array and then a loop that assigns all its elements. *)
Definition new_array (dims : list nat) (e : heap -> list nat -> hres Z) (h : heap) : hres (nat * heap) :=
  hbind (allocate_nested dims false h) (fun '(b, h) =>
  hbind (assigns (map (fun idx => (idx, fun h => e h idx)) (loops dims)) b h) (fun h => HOk (b, h))).

(** structure.h:152-196 (also 216-256, 270-307, 345-381): the four arrays
    one after the other, each followed by its values; the last may use the first. *)
Definition build (n : nat) (eb eo en : heap -> list nat -> hres Z) (ec : nat -> heap -> list nat -> hres Z) (h : heap) : hres (obj * heap) :=
  hbind (new_array [3; 3] eb h) (fun '(b, h) =>
  hbind (new_array [3] eo h) (fun '(o, h) =>
  hbind (new_array [n] en h) (fun '(a, h) =>
  hbind (new_array [n; 3] (ec b) h) (fun '(c, h) =>
  HOk ({| o_n := n; o_basis := Some b; o_origin := Some o; o_numbers := Some a; o_coords := Some c |}, h))))).

(** structure.h:99-101 *)
Definition construct_default (h : heap) : hres (obj * heap) :=
  HOk ({| o_n := 0; o_basis := None; o_origin := None; o_numbers := None; o_coords := None |}, h).

(** structure.h:111-133 *)
Definition construct_raw (n : nat) (h : heap) : hres (obj * heap) :=
  if n =? 0 then construct_default h else
  hbind (allocate_nested [3; 3] false h) (fun '(b, h) =>
  hbind (allocate_nested [3] false h) (fun '(o, h) =>
  hbind (allocate_nested [n] false h) (fun '(a, h) =>
  hbind (allocate_nested [n; 3] false h) (fun '(c, h) =>
  HOk ({| o_n := n; o_basis := Some b; o_origin := Some o; o_numbers := Some a; o_coords := Some c |}, h))))).

(** The arguments of the constructors: reading behind their ends is an error. *)
Definition arg1 (l : list Z) (idx : list nat) : hres Z :=
  match idx with
  | [i] => match nth_error l i with Some z => HOk z | None => HErr OutOfBounds end
  | _ => HErr OutOfBounds
  end.
Definition arg2 (l : list (list Z)) (idx : list nat) : hres Z :=
  match idx with
  | [i; j] => match nth_error l i with Some r => arg1 r [j] | None => HErr OutOfBounds end
  | _ => HErr OutOfBounds
  end.

(** structure.h:426-444, 454-472, [calc_cart_coords]; [b] is the array of the basis vectors. *)
Definition cart_of (frac : list (list Z)) (b : nat) (h : heap) (idx : list nat) : hres Z :=
  match idx with
  | [ii; jj] =>
      hbind (arg2 frac [ii; 0]) (fun f0 => hbind (read_at h b [0; jj]) (fun b0 =>
      hbind (arg2 frac [ii; 1]) (fun f1 => hbind (read_at h b [1; jj]) (fun b1 =>
      hbind (arg2 frac [ii; 2]) (fun f2 => hbind (read_at h b [2; jj]) (fun b2 =>
      HOk (f0 * b0 + f1 * b1 + f2 * b2)%Z))))))
  | _ => HErr OutOfBounds
  end.

(** structure.h:146-197 and 212-257 (the same for both kinds of arguments) *)
Definition construct (n : nat) (basis : list (list Z)) (numbers : list Z) (coords : list (list Z)) (is_cart : bool) (h : heap) : hres (obj * heap) :=
  if n =? 0 then construct_default h else
  build n (fun _ => arg2 basis) (fun _ _ => HOk 0%Z) (fun _ => arg1 numbers)
    (fun b => if is_cart then fun _ => arg2 coords else cart_of coords b) h.

(** structure.h:267-308; also the second half of the assignment, 343-381. *)
Definition copy_from (rhs : obj) (h : heap) : hres (obj * heap) :=
  let from (p : obj -> option nat) h idx := deref (p rhs) (fun b => read_at h b idx) in
  build (o_n rhs) (from o_basis) (from o_origin) (from o_numbers) (fun _ => from o_coords) h.
Definition construct_copy (rhs : obj) (h : heap) : hres (obj * heap) :=
  if o_n rhs =? 0 then construct_default h else copy_from rhs h.

(** structure.h:321-341 and 394-415, the release of the four arrays. *)
Definition release (o : obj) (h : heap) : hres heap :=
  deref (o_basis o) (fun b => hbind (free_nested [3] h b) (fun h =>
  deref (o_origin o) (fun b => hbind (free_nested [] h b) (fun h =>
  deref (o_numbers o) (fun b => hbind (free_nested [] h b) (fun h =>
  deref (o_coords o) (fun b => free_nested [o_n o] h b))))))).
(** structure.h:393-416, [~Structure]. *)
Definition destroy (o : obj) (h : heap) : hres heap := if o_n o =? 0 then HOk h else release o h.

Definition with_n (o : obj) (n : nat) : obj :=
  {| o_n := n; o_basis := o_basis o; o_origin := o_origin o; o_numbers := o_numbers o; o_coords := o_coords o |}.

(** structure.h:490-499 *)
Definition range_of (s : nat) : Z * Z :=
  let z := Z.of_nat s in
  if (Z.rem z 2 =? 0)%Z then (Z.quot (- z) 2 + 1, Z.quot z 2)%Z else (Z.quot (- (z - 1)) 2, Z.quot (z - 1) 2)%Z.
Definition zcount (r : Z * Z) : list Z := map (fun k => fst r + Z.of_nat k)%Z (seq 0 (Z.to_nat (snd r - fst r + 1))).

(** structure.h:483-601, [make_supercell]. *)
Definition make_supercell (s0 s1 s2 : nat) (o : obj) (h : heap) : hres (obj * heap) :=
  let n := o_n o in
  let copies := s0 * s1 * s2 in
  let r0 := range_of s0 in let r1 := range_of s1 in let r2 := range_of s2 in
  hbind (new_array [n] (fun h idx => deref (o_numbers o) (fun b => read_at h b idx)) h) (fun '(an, h) =>
  hbind (new_array [n; 3] (fun h idx => deref (o_coords o) (fun b => read_at h b idx)) h) (fun '(cn, h) =>
  let m := n * s0 * s1 * s2 in
  deref (o_numbers o) (fun b => hbind (free_nested [] h b) (fun h =>
  hbind (allocate_nested [m] false h) (fun '(bn, h) =>
  deref (o_coords o) (fun b => hbind (free_nested [n] h b) (fun h =>
  hbind (allocate_nested [m; 3] false h) (fun '(bc, h) =>
  hbind (assigns (flat_map (fun c => map (fun a => ([c * n + a], fun h => read_at h an [a])) (seq 0 n)) (seq 0 copies)) bn h) (fun h =>
  deref (o_basis o) (fun bb =>
  let shifts := flat_map (fun ii => flat_map (fun jj => map (fun kk => (ii, jj, kk)) (zcount r2)) (zcount r1)) (zcount r0) in
  let places := flat_map (fun s => map (fun a => (s, a)) (seq 0 n)) shifts in
  let shifted ii jj kk a j h :=
    hbind (read_at h cn [a; j]) (fun x => hbind (read_at h bb [0; j]) (fun p => hbind (read_at h bb [1; j]) (fun q =>
    hbind (read_at h bb [2; j]) (fun r => HOk (x + p * ii + q * jj + r * kk)%Z)))) in
  hbind (assigns (flat_map (fun '(i, (ii, jj, kk, a)) => map (fun j => ([i; j], shifted ii jj kk a j)) (seq 0 3))
                   (combine (seq 0 (length places)) places)) bc h) (fun h =>
  deref (o_origin o) (fun bo =>
  hbind (assigns (map (fun j => ([j], fun h => hbind (read_at h bb [0; j]) (fun p => hbind (read_at h bb [1; j]) (fun q =>
    hbind (read_at h bb [2; j]) (fun r => HOk (fst r0 * p + fst r1 * q + fst r2 * r)%Z))))) (seq 0 3)) bo h) (fun h =>
  hbind (assigns (flat_map (fun '(i, s) => map (fun j => ([i; j], fun h => hbind (read_at h bb [i; j]) (fun p => HOk (p * Z.of_nat s)%Z))) (seq 0 3))
                   [(0, s0); (1, s1); (2, s2)]) bb h) (fun h =>
  hbind (free_nested [] h an) (fun h => hbind (free_nested [n] h cn) (fun h =>
  HOk ({| o_n := m; o_basis := Some bb; o_origin := Some bo; o_numbers := Some bn; o_coords := Some bc |}, h))))))))))))))))).

(** structure.h:610-627, [show]: what is printed. *)
Fixpoint hmap {A B} (f : A -> hres B) (l : list A) : hres (list B) :=
  match l with [] => HOk [] | x :: r => hbind (f x) (fun y => hbind (hmap f r) (fun ys => HOk (y :: ys))) end.
Record printed : Type := { p_basis : list (list Z); p_origin : list Z; p_sites : list (Z * list Z) }.
Definition show (o : obj) (h : heap) : hres (option printed) :=
  if o_n o =? 0 then HOk None else
  deref (o_basis o) (fun bb => hbind (hmap (fun i => hmap (fun j => read_at h bb [i; j]) (seq 0 3)) (seq 0 3)) (fun basis =>
  deref (o_origin o) (fun bo => hbind (hmap (fun j => read_at h bo [j]) (seq 0 3)) (fun origin =>
  deref (o_numbers o) (fun bn => deref (o_coords o) (fun bc =>
  hbind (hmap (fun i => hbind (read_at h bn [i]) (fun a => hbind (hmap (fun j => read_at h bc [i; j]) (seq 0 3)) (fun c => HOk (a, c)))) (seq 0 (o_n o))) (fun sites =>
  HOk (Some {| p_basis := basis; p_origin := origin; p_sites := sites |})))))))).

(** Programs over the objects of numbered variables. *)
Inductive command : Type :=
  | Default (x : nat)
  | Raw (x n : nat)
  | Make (x n : nat) (basis : list (list Z)) (numbers : list Z) (coords : list (list Z)) (is_cart : bool)
  | Copy (x y : nat)
  | Assign (x y : nat)
  | Enlarge (x s0 s1 s2 : nat)
  | Destroy (x : nat).
Definition store_t : Type := list (option obj) * heap.
Definition object (st : list (option obj)) (x : nat) : hres obj :=
  match nth_error st x with Some (Some o) => HOk o | _ => HErr NoObject end.
Definition construct_at (x : nat) (r : heap -> hres (obj * heap)) (s : store_t) : hres store_t :=
  match nth_error (fst s) x with
  | Some None => hbind (r (snd s)) (fun '(o, h) => HOk (replace (fst s) x (Some o), h))
  | _ => HErr NoObject
  end.
(** structure.h:319-384: the assignment releases the target, forgets its number of atoms and
    only then looks at the source, which may be the same object. *)
Definition assign (x y : nat) (s : store_t) : hres store_t :=
  let '(st, h) := s in
  hbind (object st x) (fun this =>
  hbind (if o_n this =? 0 then HOk h else release this h) (fun h =>
  let st := replace st x (Some (with_n this 0)) in
  hbind (object st y) (fun rhs =>
  if o_n rhs =? 0 then HOk (st, h) else
  hbind (copy_from rhs h) (fun '(o, h) => HOk (replace st x (Some o), h))))).
Definition step (c : command) (s : store_t) : hres store_t :=
  match c with
  | Default x => construct_at x construct_default s
  | Raw x n => construct_at x (construct_raw n) s
  | Make x n b a cs k => construct_at x (construct n b a cs k) s
  | Copy x y => hbind (object (fst s) y) (fun rhs => construct_at x (construct_copy rhs) s)
  | Assign x y => assign x y s
  | Enlarge x s0 s1 s2 => hbind (object (fst s) x) (fun o => hbind (make_supercell s0 s1 s2 o (snd s)) (fun '(o, h) => HOk (replace (fst s) x (Some o), h)))
  | Destroy x => hbind (object (fst s) x) (fun o => hbind (destroy o (snd s)) (fun h => HOk (replace (fst s) x None, h)))
  end.
Fixpoint run (l : list command) (s : store_t) : hres store_t :=
  match l with [] => HOk s | c :: r => hbind (step c s) (run r) end.
Definition start (vars : nat) : store_t := (repeat None vars, []).
