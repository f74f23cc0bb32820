(** Property C95: the radial basis with a switching function that is one near the atom
    (mtpMRadial_de.h). *)
From Verif Require Import RadSpec ChebModel RadDeModel RadDeSpec RadDeProofs RadDeFinal.
Local Open Scope R_scope.
Local Open Scope list_scope.

(** ** C95 *)

(** Every program of constructions, copies, assignments, calls of the four methods and destructions
    that has a meaning for values runs without memory errors.  Every object shows its arguments, the
    Chebyshev polynomials of the scaled distance, their derivatives with respect to the distance, their
    products with the switching function, and the derivatives of these products, at every distance.
    Each construction with arguments takes four blocks of memory, and nothing gives them back. *)
Theorem C95_programs :
  exists V, chebyshev V /\
  forall n l vs, sense_all l (repeat None n) = Some vs ->
  exists s, acts l (empty_world n) = HOk s /\ (forall x, correct V (knows vs x) (visible s x)) /\ in_use R (snd s) = (4 * made l)%nat.
Proof. exact programs_ok. Qed.
Print Assumptions C95_programs.

(** The products are at most one in size from the inner radius on, and zero with their derivatives
    from the outer radius on.  Below the inner radius they are the bare polynomials and exceed one, the
    more the higher the degree.  From the inner radius on, [MtpQ] of mtpMRadial.h has the same values
    and derivatives (below it has zeros, C52). *)
Theorem C95_tables :
  forall n l vs x rc rs m r, sense_all l (repeat None n) = Some vs -> knows vs x = Some (Known rc rs m r) ->
  exists s cv cd rv rd, acts l (empty_world n) = HOk s /\ visible s x = HOk (rc, rs, Z.of_nat m, r, Some [cv; cd; rv; rd]) /\
  (rs <= r -> Forall (fun v => Rabs v <= 1) rv) /\
  (rc <= r -> rv = repeat 0 (S m) /\ rd = repeat 0 (S m)) /\
  (r < rs -> rv = cv /\ rd = cd /\ nth 0 rv 0 = 1 /\ forall i, (i < m)%nat -> Rabs (nth i rv 0) < Rabs (nth (S i) rv 0)) /\
  (rs <= r -> forall old, sized (S m) old -> mq_build (S m) rc rs r old = Ok (rv, rd)).
Proof. exact tables_ok. Qed.
Print Assumptions C95_tables.

(** Copies share their arrays with the original, which does no harm: an array, once its constructor
    has filled it, is never changed or freed, so a pointer from a getter stays good, also after its
    object is gone. *)
Theorem C95_arrays_stay :
  forall n l l' vs, sense_all (l ++ l') (repeat None n) = Some vs ->
  exists s s', acts l (empty_world n) = HOk s /\ acts (l ++ l') (empty_world n) = HOk s' /\
  forall b c, nth_error (snd s) b = Some (Some c) -> nth_error (snd s') b = Some (Some c).
Proof. exact cells_stay. Qed.
Print Assumptions C95_arrays_stay.

(** Radii in the wrong order stop the program; a negative highest degree is not refused but written
    outside of the arrays or through the null pointer. *)
Theorem C95_arguments :
  forall s x rc rs m r, vacant R radial s x = HOk tt -> rc <= rs \/ (m < 0)%Z ->
  act (DMake x rc rs m r) s = HErr (if Rlt_dec rs rc then if (m =? -1)%Z then OutOfBounds else NullDeref else Aborted).
Proof. exact make_fails. Qed.
Print Assumptions C95_arguments.

(** The methods of an object made without arguments follow the null pointer. *)
Theorem C95_blank_fails :
  forall n l vs x p, sense_all l (repeat None n) = Some vs -> knows vs x = Some Blank ->
  acts (l ++ [DCalc x p]) (empty_world n) = HErr NullDeref.
Proof. exact blank_fails. Qed.
Print Assumptions C95_blank_fails.

(** So no memory comes back when every object is gone. *)
Theorem C95_memory_refuted :
  exists n l vs s, sense_all l (repeat None n) = Some vs /\ (forall x, knows vs x = None) /\ acts l (empty_world n) = HOk s /\ in_use R (snd s) = 4%nat.
Proof. exact leaks. Qed.
Print Assumptions C95_memory_refuted.

(** A program with a copy that outlives the original. *)
Example C95_case_sense : sense_all sample (repeat None 2) = Some [None; Some (Known 6 2 3 3)].
Proof. exact sample_sense. Qed.
Example C95_case : exists s, acts sample (empty_world 2) = HOk s /\ in_use R (snd s) = 4%nat /\ visible s 0 = HErr NoObject /\
  visible s 1 = HOk (6, 2, 3%Z, 3, Some [[1; -1 / 2; -1 / 2; 1]; [0; 1 / 2; -1; 0]; [459 / 512; -459 / 1024; -459 / 1024; 459 / 512]; [-135 / 512; 297 / 512; -783 / 1024; -135 / 512]]).
Proof. exact ex_sample. Qed.
Example C95_case_below : exists s cv cd rv rd, acts [DMake 0 6 2 3 0] (empty_world 1) = HOk s /\ visible s 0 = HOk (6, 2, 3%Z, 0, Some [cv; cd; rv; rd]) /\ rv = [1; -2; 7; -26].
Proof. exact ex_below. Qed.
Example C95_case_blank : sense_all [DDefault 0] (repeat None 1) = Some [Some Blank] /\ knows [Some Blank] 0 = Some Blank /\ vacant R radial (empty_world 1) 0 = HOk tt.
Proof. repeat split. Qed.
