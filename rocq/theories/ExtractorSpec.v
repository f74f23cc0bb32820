(** What the text of a frame says, independent of the extractor. *)
From Verif Require Import Text.

(** [line] is a heading: it contains the word, in capitals or not. *)
Definition heads (word line : string) : Prop := contains word (upper line) = true.
(** The [n] lines after the first heading are [block] (fewer only at the end of the text). *)
Definition block_of (word : string) (n : nat) (lines block : list string) : Prop :=
  exists pre head post, lines = pre ++ head :: block ++ post /\ heads word head /\ Forall (fun l => ~ heads word l) pre /\
  (length block = n \/ length block < n /\ post = []).
(** The words of a line, as numbers. *)
Definition reads {F} (p : string -> result F) (ts : list string) (xs : list F) : Prop := Forall2 (fun t x => p t = Ok x) ts xs.
(** Words [a], ..., [b-1] of a line, as far as present. *)
Definition words (a b : nat) (line : string) : list string := firstn (b - a) (skipn a (split_ws line)).
(** The last three words of a line, as numbers. *)
Definition ends_with {F} (p : string -> result F) (line : string) (xs : list F) : Prop :=
  exists front t0 t1 t2, split_ws line = front ++ [t0; t1; t2] /\ reads p [t0; t1; t2] xs.
(** Some word of the line contains [s], in capitals or not. *)
Definition mentions (s line : string) : Prop := exists w, In w (split_ws line) /\ heads s w.
(** The line after the first heading, and the two after that. *)
Definition three_after (word : string) (lines : list string) (a b c : string) : Prop :=
  exists pre head post, lines = pre ++ head :: a :: b :: c :: post /\ heads word head /\ Forall (fun l => ~ heads word l) pre.
(** The last words of a line, at most three, as numbers. *)
Definition last_numbers {F} (p : string -> result F) (line : string) (xs : list F) : Prop :=
  exists front ts, split_ws line = front ++ ts /\ reads p ts xs /\ (length ts = 3 \/ length ts < 3 /\ front = []).
(** What the lattice rows of a frame say about its virial: nothing when the first of them has three
    words, otherwise the numbers at their ends, equally many in each. *)
Definition stress_of {F} (p : string -> result F) (lines : list string) (v : option (list (list F))) : Prop :=
  exists pre head a post, lines = pre ++ head :: a :: post /\ heads "LATTICE VECTOR" head /\ Forall (fun l => ~ heads "LATTICE VECTOR" l) pre /\
  ((length (split_ws a) = 3 /\ v = None) \/
   (length (split_ws a) <> 3 /\ exists b c rest x y z, post = b :: c :: rest /\ last_numbers p a x /\ last_numbers p b y /\ last_numbers p c z /\
    length x = length y /\ length y = length z /\ v = Some [x; y; z])).
