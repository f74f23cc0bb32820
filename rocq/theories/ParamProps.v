(** Property C59: ownership of potential parameters. *)
From Verif Require Import ParamModel ParamSpec ParamProofs.
Open Scope nat_scope.

(** ** C59 *)

(** Every program made of construction, loading, copying, moving into a new object, copy
    assignment to another object that keeps non-empty tables non-empty, and destruction
    runs without a memory error, and every object reads back as the plain value the program
    gives it: copies are equal and independent, moved-from objects are empty. *)
Theorem C59_programs :
  forall l, usable_all keeps_tables nothing l -> exists w, run_ops start l = HOk w /\ shows w (meaning_of nothing l).
Proof. exact programs_ok. Qed.
Print Assumptions C59_programs.

Example C59_programs_case : usable_all keeps_tables nothing ex_prog.
Proof. exact ex_prog_usable. Qed.
Example C59_programs_result : exists w, run_ops start ex_prog = HOk w /\
  show w 2 = HOk (5, [0; 0; 0; 0; 0; 1; 0; 0], [0; 0; 1; 1], [0; 1; 2])%Z /\ show w 0 = HOk no_value.
Proof. exact ex_prog_shows. Qed.

(** Without assignments, nothing is left allocated once every object is destroyed. *)
Theorem C59_no_leak :
  forall l, usable_all never nothing l -> (forall i, meaning_of nothing l i = None) -> exists w, run_ops start l = HOk w /\ no_block_left w.
Proof. exact no_leak. Qed.
Print Assumptions C59_no_leak.

Example C59_no_leak_case : usable_all never nothing [Load 0 5 [0; 0; 0; 0]%Z [] [0]%Z 1 0 1; CopyNew 1 0; MoveNew 2 1; Destroy 1; Destroy 0; Destroy 2] /\
  forall i, meaning_of nothing [Load 0 5 [0; 0; 0; 0]%Z [] [0]%Z 1 0 1; CopyNew 1 0; MoveNew 2 1; Destroy 1; Destroy 0; Destroy 2] i = None.
Proof. exact ex_noleak. Qed.

(** With copy assignment there are leaks. *)
Theorem C59_leak_refuted :
  exists l, usable_all keeps_tables nothing l /\ (forall i, meaning_of nothing l i = None) /\ exists w, run_ops start l = HOk w /\ ~ no_block_left w.
Proof. exact (ex_intro _ ex_leak ex_leak_ok). Qed.
Print Assumptions C59_leak_refuted.

(** Move assignment from an object with a basic table: the target shows the head of the basic
    table in place of the times table (or reads past its end), and destroying the target
    releases the basic table twice. *)
Theorem C59_move_assign_breaks :
  forall w i j v u, reachable w -> i <> j -> show w i = HOk v -> show w j = HOk u -> basic_table u <> [] ->
  exists w', step w (MoveAssign i j) = HOk w' /\ show w' j = HOk no_value /\
  show w' i = (if length (times_table u) <=? length (basic_table u)
               then HOk (let '(mc, b, t, m) := u in (mc, b, firstn (length t) b, m)) else HErr OutOfBounds) /\
  step w' (Destroy i) = HErr DoubleFree.
Proof. exact move_assign_breaks. Qed.
Print Assumptions C59_move_assign_breaks.

(** Assigning an object to itself empties it, and destroying it releases its tables twice. *)
Theorem C59_self_assign_breaks :
  forall w i v, reachable w -> show w i = HOk v -> (basic_table v <> [] \/ times_table v <> [] \/ mapping_table v <> []) ->
  exists w', step w (CopyAssign i i) = HOk w' /\ show w' i = HOk no_value /\ step w' (Destroy i) = HErr DoubleFree.
Proof. exact self_assign_breaks. Qed.
Print Assumptions C59_self_assign_breaks.

(** Assigning an object with an empty table to one whose table is not empty leaves a dangling
    pointer, released again by the destructor. *)
Theorem C59_shrinking_assign_breaks :
  forall w i j v u, reachable w -> i <> j -> show w i = HOk v -> show w j = HOk u -> ~ keeps_tables v u ->
  exists w', step w (CopyAssign i j) = HOk w' /\ step w' (Destroy i) = HErr DoubleFree.
Proof. exact shrink_assign_breaks. Qed.
Print Assumptions C59_shrinking_assign_breaks.

Example C59_breaks_case : exists w, reachable w /\ show w 0 = HOk (5, [0; 0; 0; 0; 0; 1; 0; 0], [0; 0; 1; 1], [0; 1])%Z /\
  show w 1 = HOk (2, [0; 0; 0; 0], [], [0])%Z /\ ~ keeps_tables (5, [0; 0; 0; 0; 0; 1; 0; 0], [0; 0; 1; 1], [0; 1])%Z (2, [0; 0; 0; 0], [], [0])%Z.
Proof. exact ex_breaks. Qed.
