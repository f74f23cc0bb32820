(** Model of reading PWmat files several times in one process:
    matersdk/io/pwmat/output/outfermi.py, report.py, matersdk/io/pwmat/input/inkpt.py and
    matersdk/io/pwmat/utils/acextractor.py.  Some lines are read through [linecache], which keeps
    the lines of a path in the process, others by opening the file. *)
From Coq Require Import ZArith.
From Verif Require Import Text MovementModel AtomConfigModel.
Open Scope nat_scope.
Open Scope list_scope.

(** The files on the disk and the lines linecache holds, by path.  Paths are absolute. *)
Record world : Type := mkWorld { disk : string -> option string; held : string -> option (list string) }.
Definition set_at {A} (f : string -> A) (p : string) (a : A) (q : string) : A := if String.eqb q p then a else f q.

(** A computation that may look at files. *)
Definition reader (A : Type) : Type := world -> world * result A.
Definition done {A} (a : A) : reader A := fun w => (w, Ok a).
Definition of_result {A} (x : result A) : reader A := fun w => (w, x).
Definition andthen {A B} (m : reader A) (f : A -> reader B) : reader B := fun w =>
  match m w with (w', Ok a) => f a w' | (w', Err e) => (w', Err e) end.

(** [linecache.getlines(path)] of the standard library: held lines are returned without looking at
    the file, a file is read and its lines held, a file that cannot be read gives no lines and
    nothing is held.  (The newline linecache adds at the end is a blank, and only the tokens of
    lines are used.) *)
Definition cached_lines (p : string) : reader (list string) := fun w =>
  match held w p with
  | Some ls => (w, Ok ls)
  | None =>
    match disk w p with
    | Some c => (mkWorld (disk w) (set_at (held w) p (Some (file_lines c))), Ok (file_lines c))
    | None => (w, Ok [])
    end
  end.
(** [linecache.getline(path, i).split()] *)
Definition cached_tokens (p : string) (i : nat) : reader (list string) :=
  andthen (cached_lines p) (fun ls => done (split_ws (getline ls i))).
(** [open(path)] and reading all of it; FileNotFoundError (written PlainException here). *)
Definition opened (p : string) : reader string := fun w =>
  (w, match disk w p with Some c => Ok c | None => Err PlainException end).

(** [l[-1]], [l[-2]] *)
Definition from_end {A} (l : list A) (k : nat) : result A := match nth_error (rev l) k with Some x => Ok x | None => Err IndexError end.

Section Readers.
Variable F : Type.
(** [int(token)], [float(token)], [np.round(x, 3)]. *)
Variable int_of : string -> result Z.
Variable pfloat : string -> result F.
Variable round3 : F -> F.

(** *** OUT.FERMI *)

(** outfermi.py:12-21 *)
Definition get_efermi (p : string) : reader F :=
  andthen (cached_tokens p 1) (fun ts => of_result (bind (from_end ts 1) (fun t => bind (pfloat t) (fun x => Ok (round3 x))))).

(** *** IN.KPT *)

(** inkpt.py:33-47 and 50-64, called at construction (inkpt.py:28-30) *)
Definition kpt_construct (p : string) : reader (Z * Z) :=
  andthen (cached_tokens p 2) (fun ts => andthen (of_result (bind (get ts 0) int_of)) (fun iflag =>
  andthen (cached_tokens p 2) (fun ts => of_result (bind (from_end ts 0) (fun t => bind (int_of t) (fun a0 => Ok (iflag, a0))))))).
(** inkpt.py:67-79 *)
Definition kpt_num (p : string) : reader Z :=
  andthen (cached_tokens p 1) (fun ts => of_result (bind (get ts 0) int_of)).
(** inkpt.py:92-94, 162-163, 187-188, 214-215: [readlines()[2:]] *)
Definition body (c : string) : list string := skipn 2 (file_lines c).
(** inkpt.py:97-102; rows of different lengths make no array of numbers: ValueError. *)
Definition frac_rows (c : string) : result (list (list F)) :=
  bind (mapM (fun l => mapM pfloat (firstn 3 (split_ws l))) (body c)) (fun rows =>
  match rows with
  | [] => Ok []
  | r :: rs => if forallb (fun x => List.length x =? List.length r) rs then Ok rows else Err ValueError
  end).
(** inkpt.py:165 *)
Definition weights (c : string) : result (list F) :=
  mapM (fun l => bind (get (split_ws l) 3) pfloat) (body c).
(** inkpt.py:186-199: names and positions of the lines with five tokens. *)
Fixpoint hsp_scan (ls : list string) : result (list (string * list F)) :=
  match ls with
  | [] => Ok []
  | l :: r =>
    match split_ws l with
    | [a; b; c; _; name] =>
      bind (pfloat a) (fun x => bind (pfloat b) (fun y => bind (pfloat c) (fun z =>
      bind (hsp_scan r) (fun h => Ok ((name, [x; y; z]) :: h)))))
    | _ => hsp_scan r
    end
  end.
(** inkpt.py:213-224: the dictionary, in the order its keys are added. *)
Fixpoint idx2hsp_from (i : nat) (ls : list string) : list (nat * string) :=
  match ls with
  | [] => []
  | l :: r =>
    match split_ws l with
    | [_; _; _; _; name] => (i, name) :: idx2hsp_from (S i) r
    | _ => idx2hsp_from (S i) r
    end
  end.
(** inkpt.py:82-102, 152-167, 170-199, 202-224 *)
Definition kpt_frac (p : string) : reader (list (list F)) := andthen (opened p) (fun c => of_result (frac_rows c)).
Definition kpt_weights (p : string) : reader (list F) := andthen (opened p) (fun c => of_result (weights c)).
Definition kpt_hsp (p : string) : reader (list (string * list F)) := andthen (opened p) (fun c => of_result (hsp_scan (body c))).
Definition kpt_index (p : string) : reader (list (nat * string)) := andthen (opened p) (fun c => done (idx2hsp_from 0 (body c))).

(** *** REPORT *)

(** report.py:17-38, numbers of lines from 1 *)
Definition search_aim (c : string) (aim : string) : list nat :=
  map fst (filter (fun q => contains aim (snd q)) (combine (seq 1 (List.length (file_lines c))) (file_lines c))).
(** report.py:55-60, 77-82 and 154-156: the line is found in the file and taken from linecache. *)
Definition rep_token (aim : string) (p : string) : reader string :=
  andthen (opened p) (fun c => andthen (of_result (get (search_aim c aim) 0)) (fun idx =>
  andthen (cached_tokens p idx) (fun ts => of_result (from_end ts 0)))).
(** report.py:41-62, 65-84, 142-158 *)
Definition rep_bands (p : string) : reader Z := andthen (rep_token "NUM_BAND" p) (fun t => of_result (int_of t)).
Definition rep_kpts (p : string) : reader Z := andthen (rep_token "NUM_KPT" p) (fun t => of_result (int_of t)).
Definition rep_atom (p : string) : reader string := rep_token "IN.ATOM" p.

(** *** atom.config *)

(** acextractor.py:71-88: the number of atoms first (linecache), then the rest
    (AtomConfigModel.v), for which the file is opened. *)
Definition ac_read (p : string) : reader (extracted F) :=
  andthen (cached_lines p) (fun lc => andthen (of_result (ac_get_num_atoms lc)) (fun _ =>
  andthen (opened p) (fun file => of_result (ac_open F pfloat lc file)))).

(** *** A process *)

Inductive question : Type :=
  EFermi | KptObject | KptNum | KptFrac | KptWeights | KptHsp | KptIndex | RepBands | RepKpts | RepAtom | AtomConfig.
Inductive answer : Type :=
  | AInt (z : Z) | AFloat (x : F) | AInts (a b : Z) | ARows (l : list (list F)) | AFloats (l : list F)
  | AHsp (l : list (string * list F)) | AIndex (l : list (nat * string)) | AText (s : string) | AStructure (x : extracted F).
Definition lift {A} (f : A -> answer) (m : reader A) : reader answer := andthen m (fun a => done (f a)).
Definition ask (q : question) (p : string) : reader answer :=
  match q with
  | EFermi => lift AFloat (get_efermi p)
  | KptObject => lift (fun ab => AInts (fst ab) (snd ab)) (kpt_construct p)
  | KptNum => lift AInt (kpt_num p)
  | KptFrac => lift ARows (kpt_frac p)
  | KptWeights => lift AFloats (kpt_weights p)
  | KptHsp => lift AHsp (kpt_hsp p)
  | KptIndex => lift AIndex (kpt_index p)
  | RepBands => lift AInt (rep_bands p)
  | RepKpts => lift AInt (rep_kpts p)
  | RepAtom => lift AText (rep_atom p)
  | AtomConfig => lift AStructure (ac_read p)
  end.

(** What happens in the life of a process: files change, questions are asked. *)
Inductive event : Type := Write (p c : string) | Remove (p : string) | Ask (q : question) (p : string).
Definition happen (w : world) (e : event) : world :=
  match e with
  | Write p c => mkWorld (set_at (disk w) p (Some c)) (held w)
  | Remove p => mkWorld (set_at (disk w) p None) (held w)
  | Ask q p => fst (ask q p w)
  end.
Definition history (w : world) (es : list event) : world := fold_left happen es w.
(** The answer to a question asked after these events. *)
Definition answer_after (w : world) (es : list event) (q : question) (p : string) : result answer :=
  snd (ask q p (history w es)).
End Readers.
