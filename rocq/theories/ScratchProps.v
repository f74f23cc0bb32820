(** The memory of the descriptor functions: the properties. *)
From Verif Require Import HeapModel NestModel NestSpec TildeModel TildeSpec ScratchModel ScratchSpec ScratchFinal ScratchCases.
Open Scope nat_scope.

(** ** C104 *)
(** For every heap and all arguments that fit together, the function for the values returns an array with
    exactly the elements of the block matrix; older memory stays as it was, nothing but that array is in
    use afterwards, and released with its numbers of rows and columns it leaves nothing. *)
Theorem C104_generate a h : fits a -> exists b h1, generate a h = HOk (b, h1) /\
  firstn (length h) h1 = h /\ holds h1 b [4] (matrix (a_value a) a) /\
  length (in_use h1) = length (in_use h) + block_count [rows_of a; cols_of a; 4] /\
  exists h2, free3dArray b (rows_of a) (cols_of a) h1 = HOk h2 /\ restored h h2.
Proof. exact (generate_call a h). Qed.
Print Assumptions C104_generate.

(** The same for the derivatives. *)
Theorem C104_deriv a h : fits a -> exists b h1, deriv a h = HOk (b, h1) /\
  firstn (length h) h1 = h /\ holds h1 b [4; 3] (matrix (a_deriv a) a) /\
  length (in_use h1) = length (in_use h) + block_count [rows_of a; cols_of a; 4; 3] /\
  exists h2, free4dArray b (rows_of a) (cols_of a) 4 h1 = HOk h2 /\ restored h h2.
Proof. exact (deriv_call a h). Qed.
Print Assumptions C104_deriv.

(** An array of the caller, whatever was in it, is filled with the values, and only the caller's own array
    is left. *)
Theorem C104_generate_into a h init l b h1 h2 : fits a -> Forall (fun e => within [rows_of a; cols_of a; 4] (fst e)) l ->
  allocate3dArray (rows_of a) (cols_of a) 4 init h = HOk (b, h1) -> writes h1 b l = HOk h2 ->
  exists h3 h4, generate_into a b h2 = HOk h3 /\ holds h3 b [4] (matrix (a_value a) a) /\
    free3dArray b (rows_of a) (cols_of a) h3 = HOk h4 /\ restored h h4.
Proof. exact (generate_into_call a h init l b h1 h2). Qed.
Print Assumptions C104_generate_into.

(** The derivatives are right too, but after the caller has released everything it owns two blocks
    are still in use: each call loses them. *)
Theorem C104_deriv_into_refuted a h init l b h1 h2 : fits a -> Forall (fun e => within [rows_of a; cols_of a; 4; 3] (fst e)) l ->
  allocate4dArray (rows_of a) (cols_of a) 4 3 init h = HOk (b, h1) -> writes h1 b l = HOk h2 ->
  exists h3 h4, deriv_into a b h2 = HOk h3 /\ holds h3 b [4; 3] (matrix (a_deriv a) a) /\
    free4dArray b (rows_of a) (cols_of a) 4 h3 = HOk h4 /\ firstn (length h) h4 = h /\ length (in_use h4) = length (in_use h) + 2.
Proof. exact (deriv_into_call a h init l b h1 h2). Qed.
Print Assumptions C104_deriv_into_refuted.

(** Programs of any length whose callers release what they own never fail; older memory stays as it was, and
    the blocks in use grow by exactly two for each filling of an array of derivatives. *)
Theorem C104_programs l h : Forall careful l -> exists h', calls l h = HOk h' /\ firstn (length h) h' = h /\
  length (in_use h') = length (in_use h) + 2 * length (filter fills_derivatives l).
Proof. exact (calls_mem l h). Qed.
Print Assumptions C104_programs.

(** So there is no bound: the same call repeated [k] times keeps [2 * k] blocks. *)
Theorem C104_memory_refuted a n m k h : sized a n m ->
  exists h', calls (repeat (DerivInto a n m) k) h = HOk h' /\ length (in_use h') = length (in_use h) + 2 * k.
Proof. exact (calls_grow a n m k h). Qed.
Print Assumptions C104_memory_refuted.

(** A case meeting the hypotheses, and tests on it: the first row of the values, a program of five
    calls next to an older block, and an array released with one row too few. *)
Example C104_case_sized : sized demo 2 4.
Proof. exact demo_sized. Qed.
Example C104_case_values : demo_row [] = HOk [11; 0; 11; 11]%Z.
Proof. exact demo_values. Qed.
Example C104_case_program : exists h, calls [DerivInto demo 2 4; Generate demo 2 4; Deriv demo 2 4; GenerateInto demo 2 4; DerivInto demo 2 4] [Some [Some 7%Z]] = HOk h /\
  length (in_use h) = 5 /\ hd None h = Some [Some 7%Z].
Proof. exact demo_program. Qed.
Example C104_case_fewer : exists h, step [] (Generate demo 1 4) = HOk h /\ length (in_use h) = 5.
Proof. exact demo_fewer. Qed.
