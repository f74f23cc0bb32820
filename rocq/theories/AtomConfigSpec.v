(** What a printed floating point number looks like. *)
From Verif Require Import Text.

Definition number_chars : string := "0123456789+-.eEnNaAiIfF".
Fixpoint in_string (c : ascii) (s : string) : Prop :=
  match s with "" => False | String a r => a = c \/ in_string c r end.
(** Not empty and built from the characters that occur in printed numbers,
    "inf" and "nan". *)
Definition number_text (t : string) : Prop :=
  t <> "" /\ forall c, in_string c t -> in_string c number_chars.

(** A numeral and the number it stands for. *)
Definition digit (c : ascii) (d : N) : Prop := (d < 10)%N /\ c = ascii_of_nat (48 + N.to_nat d).
Inductive numeral : string -> N -> Prop :=
| numeral_one c d : digit c d -> numeral (String c "") d
| numeral_more s n c d : numeral s n -> digit c d -> numeral (s +++ String c "") (10 * n + d).
(** The first word of a line is a numeral for [n]. *)
Definition begins_with (line : string) (n : N) : Prop := exists w ws, split_ws line = w :: ws /\ numeral w n.
