(** Model of matersdk/io/pwmat/output/report.py and outfermi.py: reading the
    eigenvalues of a REPORT file and finding the band edges.

    Numbers are exact rationals; [float] of a token is an arbitrary reader. *)
From Coq Require Import QArith Qround Qabs.
From Verif Require Import Text DataModel.
Open Scope nat_scope.
Open Scope list_scope.

(** Python's [round] on a rational: nearest integer, halves to even. *)
Definition round_int (x : Q) : Z :=
  let f := Qfloor x in
  match (x - inject_Z f ?= 1 # 2)%Q with
  | Lt => f
  | Gt => (f + 1)%Z
  | Eq => if Z.even f then f else (f + 1)%Z
  end.
(** [round(x, d)] and [np.round(x, d)]; [s] is [10 ** d]. *)
Definition round_to (s : positive) (x : Q) : Q := round_int (x * (Zpos s # 1)) # s.
Definition round4 : Q -> Q := round_to 10000.
Definition round3 : Q -> Q := round_to 1000.

Inductive spin : Type := Up | Down.
(** The eigenvalues of each spin: rows are k-points, columns bands. *)
Record table : Type := mkTable { t_up : list (list Q); t_down : list (list Q) }.
Definition rows (t : table) (s : spin) : list (list Q) := match s with Up => t_up t | Down => t_down t end.

Section Reading.
(** [int(token)] (of a natural number) and [float(token)]. *)
Variable int_of : string -> result nat.
Variable float_of : string -> result Q.
(** Whether comparing arrays that cannot be broadcast raises (NumPy 1.25 and later)
    or is true with a warning (earlier). *)
Variable strict_compare : bool.

(** report.py:17-38, line numbers from 1 *)
Definition search_aim (lines : list string) (aim : string) : list nat :=
  map fst (filter (fun p => contains aim (snd p)) (combine (seq 1 (List.length lines)) lines)).

(** report.py:41-84: [linecache.getline(path, idx).split()[-1]] *)
Definition last_token (s : string) : result string :=
  match rev (split_ws s) with t :: _ => Ok t | [] => Err IndexError end.
Definition get_number (lines : list string) (aim : string) : result nat :=
  bind (get (search_aim lines aim) 0) (fun idx =>
  bind (get lines (idx - 1)) (fun l => bind (last_token l) int_of)).

(** report.py:118-121: the numbers of the lines after a header. *)
Definition block (lines : list string) (idx num_lines : nat) : result (list Q) :=
  mapM float_of (flat_map split_ws (slice idx (idx + num_lines) lines)).

(** report.py:136-137: [assert up.shape != down]; the comparison of a pair of numbers
    with an array of [b] columns. *)
Definition compare_shapes (down : list (list Q)) : result unit :=
  match down with
  | [] => Ok tt
  | r :: _ =>
      match List.length r with
      | 0 => Ok tt
      | 1 | 2 => Err ValueError
      | _ => if strict_compare then Err ValueError else Ok tt
      end
  end.

(** report.py:87-139 *)
Definition get_eigen_energies (lines : list string) : result table :=
  bind (get_number lines "NUM_KPT") (fun num_kpts =>
  bind (get_number lines "NUM_BAND") (fun num_bands =>
  let num_lines := (num_bands + 4) / 5 in
  bind (mapM (fun idx => block lines idx num_lines) (search_aim lines "eigen energies, in eV")) (fun blocks =>
  bind (np_stack (firstn num_kpts blocks)) (fun up =>
  bind (np_stack (skipn num_kpts blocks)) (fun down =>
  bind (compare_shapes down) (fun _ =>
  Ok (mkTable up down))))))).

(** outfermi.py:12-21, the first row of the file *)
Definition get_efermi (row : string) : result Q :=
  match rev (split_ws row) with
  | _ :: t :: _ => bind (float_of t) (fun x => Ok (round3 x))
  | _ => Err IndexError
  end.
End Reading.

(** ** Band edges *)

Definition Qltb (x y : Q) : bool := negb (Qle_bool y x).
Definition tol : Q := 1 # 10000.

(** Entries of an array in the order of [np.where]: row, column, value. *)
Definition numbered {A} (l : list A) : list (nat * A) := combine (seq 0 (List.length l)) l.
Definition entries (a : list (list Q)) : list (nat * nat * Q) :=
  flat_map (fun p => map (fun q => (fst p, fst q, snd q)) (numbered (snd p))) (numbered a).

(** report.py:189-203: column [b] of the array; an array without rows has none. *)
Definition column (a : list (list Q)) (b : nat) : list Q := flat_map (fun r => match nth_error r b with Some x => [x] | None => [] end) a.
Definition num_columns (a : list (list Q)) : nat := match a with [] => 0 | r :: _ => List.length r end.
Definition is_metal (t : table) (ef : Q) : bool :=
  existsb (fun s => existsb (fun b =>
    existsb (fun x => Qltb (x - ef) (- tol)) (column (rows t s) b) && existsb (fun x => Qltb tol (x - ef)) (column (rows t s) b))
    (seq 0 (num_columns (rows t s)))) [Up; Down].

(** The four lists returned; the energy [None] is plus or minus infinity. *)
Record edges : Type := mkEdges {
  e_energies : list (option Q); e_kpts : list nat; e_bands : list nat; e_spins : list (option spin) }.
(** energy, k-point, band and spin found so far *)
Definition best : Type := (option Q * nat * nat * option spin)%type.
Definition no_best : best := (None, 0, 0, None).

(** report.py:243-250 *)
Definition cbm_step (s : spin) (b : best) (p : nat * nat * Q) : best :=
  let '(i, j, x) := p in
  if match fst (fst (fst b)) with None => true | Some e => Qltb x e end
  then (Some (round4 x), i + 1, j + 1, Some s) else b.
Definition cbm_scan (t : table) (ef : Q) : best :=
  fold_left (fun b s => fold_left (cbm_step s) (filter (fun p => Qle_bool ef (snd p)) (entries (rows t s))) b) [Up; Down] no_best.

(** report.py:309-316 *)
Definition vbm_step (s : spin) (b : best) (p : nat * nat * Q) : best :=
  let '(i, j, x) := p in
  if match fst (fst (fst b)) with None => true | Some e => Qltb e x end
  then (Some (round4 x), i + 1, j + 1, Some s) else b.
Definition vbm_scan (t : table) (ef : Q) : best :=
  fold_left (fun b s => fold_left (vbm_step s) (filter (fun p => Qle_bool (snd p) ef) (entries (rows t s))) b) [Up; Down] no_best.

(** report.py:259-270 and 325-334: the test for band [j] in row [k] (the 1-based
    number used as an index); any exception counts as no. *)
Definition shares (t : table) (s : spin) (k j : nat) (e : option Q) : bool :=
  match e, bind (get (rows t s) k) (fun r => get r j) with
  | Some e, Ok x => Qltb (Qabs (x - e)) (1 # 1000)
  | _, _ => false
  end.
Definition add_shared (offset : nat) (t : table) (b : best) : edges :=
  let '(e, k, j0, s0) := b in
  fold_left (fun d s => fold_left (fun d j =>
      if shares t s k j e
      then mkEdges (e_energies d ++ [e]) (e_kpts d ++ [k]) (e_bands d ++ [j + offset]) (e_spins d ++ [Some s])
      else d) (seq 0 (num_columns (t_up t))) d)
    [Up; Down] (mkEdges [e] [k] [j0] [s0]).

(** [up.shape[1]] needs an array with rows. *)
Definition shape1 (t : table) : result unit := match t_up t with [] => Err IndexError | _ => Ok tt end.

(** report.py:206-273 *)
Definition get_cbm (t : table) (ef : Q) : result (option edges) :=
  if is_metal t ef then Ok None else
  bind (shape1 t) (fun _ => Ok (Some (add_shared 1 t (cbm_scan t ef)))).
(** report.py:276-334: the bands added are counted from 0. *)
Definition get_vbm (t : table) (ef : Q) : result (option edges) :=
  if is_metal t ef then Ok None else
  bind (shape1 t) (fun _ => Ok (Some (add_shared 0 t (vbm_scan t ef)))).

(** report.py:337-361; [None] is infinity. *)
Definition get_bandgap (t : table) (ef : Q) : result (option Q) :=
  bind (get_vbm t ef) (fun v => bind (get_cbm t ef) (fun c =>
  match c, v with
  | Some c, Some v =>
      bind (get (e_energies c) 0) (fun ec => bind (get (e_energies v) 0) (fun ev =>
      Ok (match ec, ev with Some x, Some y => Some (x - y)%Q | _, _ => None end)))
  | _, _ => Err TypeError
  end)).

(** report.py:364-395: 1 is a direct gap. *)
Definition get_bandgap_type (t : table) (ef : Q) : result nat :=
  bind (get_vbm t ef) (fun v => bind (get_cbm t ef) (fun c =>
  match c, v with
  | Some c, Some v => Ok (if existsb (fun k => existsb (Nat.eqb k) (e_kpts c)) (e_kpts v) then 1 else 0)
  | _, _ => Err TypeError
  end)).
