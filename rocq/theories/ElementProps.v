(** Element tables: C35.  The definitions are in [ElementModel]. *)
From Coq Require Import String List.
From Verif Require Import Base ElementModel ElementProofs.

(** ** C35 *)

(** The two tables are inverse to each other. *)
Theorem C35_inverse : forall n s, symbol_of n = Ok s <-> number_of s = Ok n.
Proof. exact (fun n s => conj (symbol_number n s) (number_symbol n s)). Qed.
Print Assumptions C35_inverse.

(** The numbers known are exactly 0 to 118; every other number raises KeyError. *)
Theorem C35_numbers : forall n : Z,
  ((exists s, symbol_of n = Ok s) <-> (0 <= n <= 118)%Z) /\ (~ (0 <= n <= 118)%Z -> symbol_of n = Err KeyError).
Proof. exact (fun n => conj (symbol_domain n) (symbol_unknown n)). Qed.
Print Assumptions C35_numbers.

(** A symbol that belongs to no number from 0 to 118 raises KeyError. *)
Theorem C35_symbols : forall s, (forall n, (0 <= n <= 118)%Z -> symbol_of n <> Ok s) -> number_of s = Err KeyError.
Proof. exact number_unknown. Qed.
Print Assumptions C35_symbols.

(** A test against the periodic table: the rows end in the noble gases. *)
Example C35_rows : Forall (fun p => symbol_of (fst p) = Ok (snd p))
  [(2, "He"); (10, "Ne"); (18, "Ar"); (36, "Kr"); (54, "Xe"); (86, "Rn"); (118, "Og")]%Z%string.
Proof. exact rows_end_in_noble_gases. Qed.
Example C35_case : number_of "Si" = Ok 14%Z /\ symbol_of 14 = Ok "Si"%string /\ number_of "si" = Err KeyError.
Proof. repeat split. Qed.
