(** Two input files of PWmat: matersdk/io/pwmat/input/dos_input.py and gen_vext.py.

    A program makes lists and objects, changes lists and writes files.  Lists are objects of their
    own with an identity; the default value of an argument is one list, made when the class is
    defined.  A step gives a new state and perhaps an exception: what was written before the
    exception stays written.  Simplified: values are of one type with a text ([str]) and perhaps a text
    with five decimals; indices are not negative; types of potentials are integers; file names are
    always valid. *)
From Coq Require Export ZArith String List.
From Verif Require Export Base Text.
Local Open Scope string_scope.
Local Open Scope list_scope.

Section Input.
Variable V : Type.
(** [str(value)]; ["{:<.5f}".format(value)], which fails for some types; decimal digits. *)
Variable show : V -> string.
Variable fixed : V -> result string.
Variable digits : Z -> string.
(** The number 6. *)
Variable six : V.

Inductive count : Type := Whole (z : Z) | Other (v : V).
(** dos_input.py:17-28; [d_grid] is the number of a list. *)
Record dos : Type := { d_atoms : V; d_method : V; d_smear : V; d_energies : count; d_grid : nat }.
(** gen_vext.py:55-60 *)
Record vext : Type := { x_center : nat; x_type : Z; x_add : bool; x_details : list V }.
Record state : Type := { lists : list (list V); doses : list dos; vexts : list vext; files : list (string * string) }.
(** dos_input.py:22: the default of [grid_interp] is list 0. *)
Definition start : state := {| lists := [[six; six; six]]; doses := []; vexts := []; files := [] |}.

Fixpoint spaces (n : nat) : string := match n with O => "" | S n => String " " (spaces n) end.
(** [" ".join] *)
Fixpoint joined (l : list string) : string := match l with [] => "" | [s] => s | s :: r => s +++ " " +++ joined r end.
(** ["{:<10d}".format(n)]: other numbers than integers fail. *)
Definition count_text (n : count) : result string :=
  match n with Whole z => Ok (digits z +++ spaces (10 - String.length (digits z))) | Other _ => Err ValueError end.
Definition line (s : string) : string := s +++ String nl "".

(** dos_input.py:38-46: the pieces in the order they are written; a piece may fail. *)
Definition dos_pieces (d : dos) (grid : list V) : list (result string) :=
  [ Ok (line (show (d_atoms d) +++ "  # 设置为0，则绘制所有原子的DOS；设置为1，则绘制部分原子的DOS，需要在atom.config文件POSITION部分的第8列设置原子权重"));
    Ok (line (show (d_method d) +++ "  # 设置为1，绘制DOS时使用插值；设置为0，使用高斯展宽(Gaussian broadening)，不做插值"));
    bind (fixed (d_smear d)) (fun s => bind (count_text (d_energies d)) (fun n =>
      Ok (line (s +++ "  " +++ n +++ " # 做插值的imsearing energy (单位：eV); 能量网格点数，默认为4000"))));
    Ok (line (joined (map show grid) +++ "  # NM1,NM2,NM3 插值的格子密度，每个格子包含在NQ1, NQ2, NQ3中"));
    Ok "0  # 只对TDDFT DOS绘制有用" ].
(** gen_vext.py:70-83 *)
Definition vext_pieces (x : vext) (center : list V) : list (result string) :=
  [ Ok (line ("VR_CENTER = " +++ joined (map show center)));
    Ok (line ("VR_TYPE = " +++ digits (x_type x)));
    Ok (line ("VR_DETAIL = " +++ joined (map show (x_details x))));
    Ok (line ("ADD_VR = " +++ (if x_add x then "T" else "F"))) ].

(** [open(path, "w")] and writing until a piece fails. *)
Fixpoint written (ps : list (result string)) : string * option exn :=
  match ps with
  | [] => ("", None)
  | Ok s :: r => let '(t, e) := written r in (s +++ t, e)
  | Err e :: _ => ("", Some e)
  end.
Fixpoint put_file (fs : list (string * string)) (path text : string) : list (string * string) :=
  match fs with [] => [(path, text)] | (p, t) :: r => if p =? path then (p, text) :: r else (p, t) :: put_file r path text end.
Fixpoint read_file (fs : list (string * string)) (path : string) : option string :=
  match fs with [] => None | (p, t) :: r => if p =? path then Some t else read_file r path end.
Fixpoint put_at {A} (l : list A) (i : nat) (x : A) : list A := match l, i with [], _ => [] | _ :: r, O => x :: r | y :: r, S i => y :: put_at r i x end.

Inductive command : Type :=
  | NewList (l : list V)
  | SetList (r i : nat) (v : V)
  | NewDos (atoms method smear : V) (energies : count) (grid : option nat)
  | SetGrid (d i : nat) (v : V)
  | WriteDos (d : nat) (path : string)
  | NewVext (center : nat) (type : Z) (add : bool) (details : list V)
  | WriteVext (x : nat) (path : string).
Definition with_lists (s : state) (l : list (list V)) : state := {| lists := l; doses := doses s; vexts := vexts s; files := files s |}.
Definition with_file (s : state) (path : string) (w : string * option exn) : state * option exn :=
  ({| lists := lists s; doses := doses s; vexts := vexts s; files := put_file (files s) path (fst w) |}, snd w).
(** An element of a list changed in place. *)
Definition set_list (s : state) (r i : nat) (v : V) : state * option exn :=
  match nth_error (lists s) r with
  | None => (s, Some NameError)
  | Some l => if Nat.ltb i (List.length l) then (with_lists s (put_at (lists s) r (put_at l i v)), None) else (s, Some IndexError)
  end.
Definition step (c : command) (s : state) : state * option exn :=
  match c with
  | NewList l => (with_lists s (lists s ++ [l]), None)
  | SetList r i v => set_list s r i v
  | NewDos a m e n g =>
      let r := match g with Some r => r | None => 0 end in
      match nth_error (lists s) r with
      | None => (s, Some NameError)
      | Some _ => ({| lists := lists s; doses := doses s ++ [{| d_atoms := a; d_method := m; d_smear := e; d_energies := n; d_grid := r |}]; vexts := vexts s; files := files s |}, None)
      end
  | SetGrid d i v => match nth_error (doses s) d with None => (s, Some NameError) | Some o => set_list s (d_grid o) i v end
  | WriteDos d path =>
      match nth_error (doses s) d with
      | None => (s, Some NameError)
      | Some o => with_file s path (written (dos_pieces o (nth (d_grid o) (lists s) [])))
      end
  | NewVext c t a l =>
      match nth_error (lists s) c with
      | None => (s, Some NameError)
      | Some _ =>
          (* gen_vext.py:57 *)
          if ((t =? 1) || (t =? 2) || (t =? 3))%Z%bool then
            ({| lists := lists s; doses := doses s; vexts := vexts s ++ [{| x_center := c; x_type := t; x_add := a; x_details := l |}]; files := files s |}, None)
          else (s, Some AssertionError)
      end
  | WriteVext x path =>
      match nth_error (vexts s) x with
      | None => (s, Some NameError)
      | Some o => with_file s path (written (vext_pieces o (nth (x_center o) (lists s) [])))
      end
  end.
(** Exceptions are caught by the program. *)
Fixpoint run (l : list command) (s : state) : state := match l with [] => s | c :: r => run r (fst (step c s)) end.
End Input.
