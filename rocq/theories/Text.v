(** Python string operations used by the text readers, on ASCII strings.
    Simplification: only ASCII text is modelled ([str.upper], [str.split] and
    [\d] are restricted to ASCII); files are read with universal newlines so the
    only line terminator is LF. *)
From Coq Require Export String Ascii.
From Verif Require Export Base.
Open Scope string_scope.
Open Scope nat_scope.
Open Scope list_scope.

(** String concatenation; [++] stays list concatenation. *)
Notation "s +++ t" := (String.append s t) (right associativity, at level 60).

Definition nl : ascii := "010"%char.

(** Characters removed by [str.split()] (ASCII part of [str.isspace]). *)
Definition is_space (c : ascii) : bool :=
  let n := nat_of_ascii c in
  ((9 <=? n) && (n <=? 13)) || ((28 <=? n) && (n <=? 32)).

Definition upper_char (c : ascii) : ascii :=
  let n := nat_of_ascii c in
  if (97 <=? n) && (n <=? 122) then ascii_of_nat (n - 32) else c.

(** [s.upper()] *)
Fixpoint upper (s : string) : string :=
  match s with
  | "" => ""
  | String c s' => String (upper_char c) (upper s')
  end.

(** [s.startswith(p)] *)
Fixpoint starts_with (p s : string) : bool :=
  match p, s with
  | "", _ => true
  | String a p', String b s' => Ascii.eqb a b && starts_with p' s'
  | String _ _, "" => false
  end.

(** [p in s] *)
Fixpoint contains (p s : string) : bool :=
  starts_with p s ||
  match s with
  | "" => false
  | String _ s' => contains p s'
  end.

(** [s.split()]: the pair is (token being built, finished tokens). *)
Fixpoint split_ws_go (s : string) : string * list string :=
  match s with
  | "" => ("", [])
  | String c s' =>
      let '(t, ts) := split_ws_go s' in
      if is_space c
      then ("", match t with "" => ts | _ => t :: ts end)
      else (String c t, ts)
  end.

Definition split_ws (s : string) : list string :=
  let '(t, ts) := split_ws_go s in
  match t with "" => ts | _ => t :: ts end.

(** [s.split(c)] for a one-character separator: never empty. *)
Fixpoint split_on (c : ascii) (s : string) : list string :=
  match s with
  | "" => [""]
  | String a s' =>
      if Ascii.eqb a c then "" :: split_on c s'
      else match split_on c s' with
           | [] => [String a ""]
           | t :: ts => String a t :: ts
           end
  end.

(** Iterating over an open text file: lines with their terminators. *)
Fixpoint file_lines (s : string) : list string :=
  match s with
  | "" => []
  | String a s' =>
      if Ascii.eqb a nl then String a "" :: file_lines s'
      else match file_lines s' with
           | [] => [String a ""]
           | t :: ts => String a t :: ts
           end
  end.

(** [sep.join] with an empty separator / repeated [+=]. *)
Fixpoint concat_str (l : list string) : string :=
  match l with
  | [] => ""
  | s :: l' => s +++ concat_str l'
  end.

(** [s[:-1]] *)
Fixpoint drop_last (s : string) : string :=
  match s with
  | "" => ""
  | String c "" => ""
  | String c s' => String c (drop_last s')
  end.

(** [s[-1]] as an option. *)
Fixpoint last_char (s : string) : option ascii :=
  match s with
  | "" => None
  | String c "" => Some c
  | String _ s' => last_char s'
  end.

Definition is_digit (c : ascii) : bool :=
  let n := nat_of_ascii c in (48 <=? n) && (n <=? 57).

(** Longest prefix of digits, and the rest. *)
Fixpoint span_digits (s : string) : string * string :=
  match s with
  | "" => ("", "")
  | String c s' =>
      if is_digit c then let '(d, r) := span_digits s' in (String c d, r)
      else ("", s)
  end.

Fixpoint digits_to_N_acc (acc : N) (s : string) : N :=
  match s with
  | "" => acc
  | String c s' => digits_to_N_acc (acc * 10 + N.of_nat (nat_of_ascii c - 48))%N s'
  end.
(** [int(ds)] for a string of decimal digits. *)
Definition digits_to_N (s : string) : N := digits_to_N_acc 0 s.

(** [re.search(r"(\d+) atoms", s, re.IGNORECASE).group(1)]: a match must start
    at a digit, the greedy run of digits has to be followed by a blank and
    "atoms"; a shorter run would be followed by a digit, so no backtracking
    succeeds. *)
Fixpoint search_num_atoms (s : string) : option string :=
  match s with
  | "" => None
  | String c s' =>
      if is_digit c then
        let '(d, r) := span_digits s in
        if starts_with " ATOMS" (upper r) then Some d else search_num_atoms s'
      else search_num_atoms s'
  end.
