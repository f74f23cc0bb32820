(** The part of structure [k] in the output of a batch with [part] numbers for each. *)
From Coq Require Import List.
Definition part_of {V} (part k : nat) (mem : list V) : list V := firstn part (skipn (k * part) mem).
