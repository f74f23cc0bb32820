(** Specification for reading files several times: a new process is one that has read nothing. *)
From Coq Require Import ZArith.
From Verif Require Import Text MovementModel AtomConfigModel FreshModel.
Open Scope nat_scope.
Open Scope list_scope.

Definition new_process (d : string -> option string) : world := mkWorld d (fun _ => None).

(** The files after some events, whatever is read in between. *)
Fixpoint files_after (d : string -> option string) (es : list event) : string -> option string :=
  match es with
  | [] => d
  | Write p c :: r => files_after (fun q => if String.eqb q p then Some c else d q) r
  | Remove p :: r => files_after (fun q => if String.eqb q p then None else d q) r
  | Ask _ _ :: r => files_after d r
  end.

(** The event concerns the file [p] in this way. *)
Definition changes (p : string) (e : event) : Prop := match e with Write q _ | Remove q => q = p | Ask _ _ => False end.
Definition asks (p : string) (e : event) : Prop := match e with Ask _ q => q = p | _ => False end.

(** Questions whose answer is in the first lines of a file only, and questions about the lines
    after them. *)
Definition about_header (q : question) : Prop := q = EFermi \/ q = KptObject \/ q = KptNum.
Definition about_body (q : question) : Prop := q = KptFrac \/ q = KptWeights \/ q = KptHsp \/ q = KptIndex.

(** The file was there when a question that is not about the body only was asked. *)
Definition looked_at (d : string -> option string) (es : list event) (p : string) : Prop :=
  exists a q b, es = a ++ Ask q p :: b /\ ~ about_body q /\ files_after d a p <> None.

(** *** The tables of an IN.KPT file *)

(** The lines after the first two, by number from 0, and the lines with a name. *)
Definition body_line (c : string) (i : nat) (l : string) : Prop := nth_error (file_lines c) (i + 2) = Some l.
Definition named (c : string) (i : nat) (name : string) : Prop :=
  exists l x y z t, body_line c i l /\ split_ws l = [x; y; z; t; name].

(** *** What a file says *)

(** The first line with a word in it. *)
Definition first_line_with (aim : string) (c l : string) : Prop :=
  exists before after, file_lines c = before ++ l :: after /\ contains aim l = true /\ Forall (fun x => contains aim x = false) before.
Definition tokens_end (l : string) (ts : list string) : Prop := exists before, split_ws l = before ++ ts.
(** The answer of a file, by question; the remaining questions are those of C106 and C08. *)
Section Says.
Variable F : Type.
Variable int_of : string -> result Z.
Variable pfloat : string -> result F.
Variable round3 : F -> F.
Inductive says (c : string) : question -> answer F -> Prop :=
| says_fermi l t u x : nth_error (file_lines c) 0 = Some l -> tokens_end l [t; u] -> pfloat t = Ok x -> says c EFermi (AFloat F (round3 x))
| says_object l a more b i j : nth_error (file_lines c) 1 = Some l -> split_ws l = a :: more -> tokens_end l [b] -> int_of a = Ok i -> int_of b = Ok j ->
    says c KptObject (AInts F i j)
| says_num l a more n : nth_error (file_lines c) 0 = Some l -> split_ws l = a :: more -> int_of a = Ok n -> says c KptNum (AInt F n)
| says_weights ws : Forall2 (fun l v => exists t, nth_error (split_ws l) 3 = Some t /\ pfloat t = Ok v) (skipn 2 (file_lines c)) ws -> says c KptWeights (AFloats F ws)
| says_bands l t n : first_line_with "NUM_BAND" c l -> tokens_end l [t] -> int_of t = Ok n -> says c RepBands (AInt F n)
| says_kpts l t n : first_line_with "NUM_KPT" c l -> tokens_end l [t] -> int_of t = Ok n -> says c RepKpts (AInt F n)
| says_atom l t : first_line_with "IN.ATOM" c l -> tokens_end l [t] -> says c RepAtom (AText F t).
End Says.
