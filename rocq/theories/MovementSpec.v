(** What it means to cut a trajectory file into frames, independent of how the
    code finds the cuts. *)
From Verif Require Import Text.

(** A separator line contains 38 consecutive dashes. *)
Fixpoint dash_run (n : nat) : string :=
  match n with O => "" | S n' => String "-" (dash_run n') end.
Definition separator (line : string) : Prop := exists a b, line = a +++ dash_run 38 +++ b.

(** A frame's text ends with a separator line and has no other. *)
Definition one_frame (f : string) : Prop :=
  exists body sep, file_lines f = body ++ [sep] /\ separator sep /\ Forall (fun l => ~ separator l) body.

(** [frames] and then [tail] make up the file, cut between lines only; the tail
    has no separator. *)
Definition cut_into (file : string) (frames : list string) (tail : string) : Prop :=
  file = concat_str frames +++ tail /\
  file_lines file = flat_map file_lines frames ++ file_lines tail /\
  Forall one_frame frames /\
  Forall (fun l => ~ separator l) (file_lines tail).

Definition has_separator (file : string) : Prop := Exists separator (file_lines file).

(** * Header lines *)

(** Tabulator, the line and page breaks, the four separators, blank. *)
Definition space (c : ascii) : Prop := In c (map ascii_of_nat [9; 10; 11; 12; 13; 28; 29; 30; 31; 32]).
(** [words row ts]: the row consists of the tokens [ts] separated (and possibly
    surrounded) by runs of blanks. *)
Definition token (t : string) : Prop := t <> "" /\ forall a c b, t = a +++ String c b -> ~ space c.
Definition blank (b : string) : Prop := forall a c r, b = a +++ String c r -> space c.
Inductive words : string -> list string -> Prop :=
| words_nil b : blank b -> words b []
| words_one b t : blank b -> token t -> words (b +++ t) [t]
| words_cons b t c row ts : blank b -> token t -> space c -> words row ts ->
    words (b +++ t +++ String c row) (t :: ts).

Definition mentions_equals (t : string) : Prop := exists a b, t = a +++ "=" +++ b.

(** A field without the comma that may follow it. *)
Definition without_comma (c : string) : string :=
  if match last_char c with Some x => Ascii.eqb x ","%char | None => false end then drop_last c else c.

(** Parse three fields, in order. *)
Definition read3 {F} (pfloat : string -> result F) (a b c : string) : result (F * F * F) :=
  bind (pfloat a) (fun x => bind (pfloat b) (fun y => bind (pfloat c) (fun z => Ok (x, y, z)))).

(** The values that are present. *)
Fixpoint somes {A} (l : list (option A)) : list A :=
  match l with
  | [] => []
  | Some x :: r => x :: somes r
  | None :: r => somes r
  end.

(** The positions of the present values, counted from [i]. *)
Fixpoint positions {A} (i : nat) (l : list (option A)) : list nat :=
  match l with
  | [] => []
  | Some _ :: r => i :: positions (S i) r
  | None :: r => positions (S i) r
  end.

(** No line terminator inside. *)
Definition single_line (s : string) : Prop := forall a b, s <> a +++ String nl b.
