(** Memory of radial functions: the properties. *)
From Verif Require Import ChebModel RadNum RadQ RadFinal RadReal RadSpec ChebSpec.
Local Open Scope nat_scope.
Local Open Scope list_scope.

Section Numbers.
Variable V : Type.
Variables zero one : V.
Variable vnext : V -> V -> V -> V.
Variable dnext : V -> V -> V -> V -> V.
Variables mul add : V -> V -> V.
Variable scaled : V -> V -> V -> V.
Variable coeff : V -> V -> V.
Variables inside accepted : V -> V -> V -> bool.
Variables factor slope : V -> V -> V -> V.
Notation poly := (poly_class V zero one vnext dnext mul scaled coeff inside).
Notation rb := (rb_class V zero one vnext dnext mul scaled coeff accepted).
Notation q := (q_class V zero one vnext dnext mul add scaled coeff inside factor slope).
Notation rq := (rq_class V zero one vnext dnext mul add scaled coeff accepted factor slope).
Notation any := (fun _ _ _ => true).
Notation nothing := (fun _ _ => []).
Notation radii := (fun hi lo => [hi; lo]).
Notation run C := (run V _ C).
Notation start := (start V _).
Notation seen C := (seen V _ C).
Notation new := (repeat None).

(** ** C94 *)
(** Programs of constructions, copies, moves, assignments, calls of [build] and destructions, over
    any number of variables, that have a meaning for values without memory: they run, every
    variable shows the size, the radii and the tables of its value, and the memory in use is what
    the values in the variables need and nothing more. *)
Theorem C94_polynomials n l vs : meaning_all V (Empty V) any l (new n) = Some vs ->
  exists s, run poly l (start n) = HOk s /\
  (forall x, seen poly s x = shows V zero 3 nothing (cut_polynomials V zero one vnext dnext mul scaled coeff inside) (holds V vs x)) /\ in_use V (snd s) = needed V 3 vs.
Proof. exact (poly_programs zero one vnext dnext mul scaled coeff inside n l vs). Qed.
Theorem C94_checked_polynomials n l vs : meaning_all V (Empty V) accepted l (new n) = Some vs ->
  exists s, run rb l (start n) = HOk s /\
  (forall x, seen rb s x = shows V zero 3 radii (polynomials V zero one vnext dnext mul scaled coeff) (holds V vs x)) /\ in_use V (snd s) = needed V 3 vs.
Proof. exact (rb_programs zero one vnext dnext mul scaled coeff accepted n l vs). Qed.
Theorem C94_radial n l vs : meaning_all V (Raw V) any l (new n) = Some vs ->
  exists s, run q l (start n) = HOk s /\
  (forall x, seen q s x = shows V zero 2 nothing (q_tables V zero one vnext dnext mul add scaled coeff inside factor slope) (holds V vs x)) /\ in_use V (snd s) = needed V 5 vs.
Proof. exact (q_programs zero one vnext dnext mul add scaled coeff inside factor slope n l vs). Qed.
Theorem C94_checked_radial n l vs : meaning_all V (Empty V) accepted l (new n) = Some vs ->
  exists s, run rq l (start n) = HOk s /\
  (forall x, seen rq s x = shows V zero 2 radii (rq_tables V zero one vnext dnext mul add scaled coeff factor slope) (holds V vs x)) /\ in_use V (snd s) = needed V 6 vs.
Proof. exact (rq_programs zero one vnext dnext mul add scaled coeff inside accepted factor slope n l vs). Qed.

(** A command does not change what other variables show: copies share nothing. *)
Theorem C94_independent n l c z : ~ touches c z ->
  (forall vs s s', meaning_all V (Empty V) any (l ++ [c]) (new n) = Some vs -> run poly l (start n) = HOk s -> run poly (l ++ [c]) (start n) = HOk s' -> seen poly s' z = seen poly s z) /\
  (forall vs s s', meaning_all V (Empty V) accepted (l ++ [c]) (new n) = Some vs -> run rb l (start n) = HOk s -> run rb (l ++ [c]) (start n) = HOk s' -> seen rb s' z = seen rb s z) /\
  (forall vs s s', meaning_all V (Raw V) any (l ++ [c]) (new n) = Some vs -> run q l (start n) = HOk s -> run q (l ++ [c]) (start n) = HOk s' -> seen q s' z = seen q s z) /\
  (forall vs s s', meaning_all V (Empty V) accepted (l ++ [c]) (new n) = Some vs -> run rq l (start n) = HOk s -> run rq (l ++ [c]) (start n) = HOk s' -> seen rq s' z = seen rq s z).
Proof. exact (all_untouched zero one vnext dnext mul add scaled coeff inside accepted factor slope n l c z). Qed.

(** A distance outside the radii stops the program in the two classes with assertions. *)
Theorem C94_rejected n l vs x m hi lo b r : meaning_all V (Empty V) accepted l (new n) = Some vs -> holds V vs x = Some (Full V m hi lo b) -> accepted hi lo r = false ->
  run rb (l ++ [Build V x r]) (start n) = HErr Aborted /\ run rq (l ++ [Build V x r]) (start n) = HErr Aborted.
Proof. exact (both_reject zero one vnext dnext mul add scaled coeff accepted factor slope n l vs x m hi lo b r). Qed.

(** What is not true: an [MtpQ] without arguments that was not assigned cannot be destroyed; *)
Theorem C94_default_breaks n l vs x : meaning_all V (Raw V) any l (new n) = Some vs -> holds V vs x = Some (Raw V) ->
  run q (l ++ [Destroy V x]) (start n) = HErr Uninitialised.
Proof. exact (q_raw_breaks zero one vnext dnext mul add scaled coeff inside factor slope n l vs x). Qed.
(** assignment to itself loses the values in three classes; in the fourth the object cannot be
    destroyed afterwards; *)
Theorem C94_to_itself_loses n l x :
  (forall vs m hi lo b, meaning_all V (Empty V) any l (new n) = Some vs -> holds V vs x = Some (Full V m hi lo b) ->
     exists s, run poly (l ++ [Assign V x x]) (start n) = HOk s /\ seen poly s x = HOk (0, [], [])) /\
  (forall vs m hi lo b, meaning_all V (Raw V) any l (new n) = Some vs -> holds V vs x = Some (Full V m hi lo b) ->
     exists s, run q (l ++ [Assign V x x]) (start n) = HOk s /\ seen q s x = HOk (0, [], [])) /\
  (forall vs m hi lo b, meaning_all V (Empty V) accepted l (new n) = Some vs -> holds V vs x = Some (Full V m hi lo b) ->
     exists s, run rq (l ++ [Assign V x x]) (start n) = HOk s /\ seen rq s x = HOk (0, [zero; zero], [])).
Proof. exact (all_self zero one vnext dnext mul add scaled coeff inside accepted factor slope n l x). Qed.
Theorem C94_to_itself_breaks n l vs x m hi lo b : meaning_all V (Empty V) accepted l (new n) = Some vs -> holds V vs x = Some (Full V m hi lo b) ->
  run rb (l ++ [Assign V x x; Destroy V x]) (start n) = HErr DoubleFree.
Proof. exact (rb_self zero one vnext dnext mul scaled coeff accepted n l vs x m hi lo b). Qed.
(** nor can it after an assignment from an empty object; *)
Theorem C94_from_empty_breaks n l vs x y m hi lo b : meaning_all V (Empty V) accepted l (new n) = Some vs -> holds V vs x = Some (Full V m hi lo b) -> holds V vs y = Some (Empty V) ->
  run rb (l ++ [Assign V x y; Destroy V x]) (start n) = HErr DoubleFree.
Proof. exact (rb_from_empty zero one vnext dnext mul scaled coeff accepted n l vs x y m hi lo b). Qed.
(** (until then it shows an empty object, and so does a copy of an empty object;) *)
Theorem C94_of_empty n l vs x y : meaning_all V (Empty V) accepted l (new n) = Some vs -> holds V vs y = Some (Empty V) ->
  (is_free V vs x = true -> exists s, run rb (l ++ [Copy V x y]) (start n) = HOk s /\ seen rb s x = HOk (0, [zero; zero], [])) /\
  (forall m hi lo b, holds V vs x = Some (Full V m hi lo b) -> exists s, run rb (l ++ [Assign V x y]) (start n) = HOk s /\ seen rb s x = HOk (0, [zero; zero], [])).
Proof. exact (rb_of_empty zero one vnext dnext mul scaled coeff accepted n l vs x y). Qed.
(** an empty [RQ_Chebyshev], made without arguments or moved from, can be neither copied, nor
    assigned, nor built; *)
Theorem C94_empty_breaks n l vs y : meaning_all V (Empty V) accepted l (new n) = Some vs -> holds V vs y = Some (Empty V) ->
  (forall x, is_free V vs x = true -> run rq (l ++ [Copy V x y]) (start n) = HErr NullDeref) /\
  (forall x v, holds V vs x = Some v -> x <> y -> run rq (l ++ [Assign V x y]) (start n) = HErr NullDeref) /\
  (forall r, run rq (l ++ [Build V y r]) (start n) = HErr (if accepted zero zero r then NullDeref else Aborted)).
Proof. exact (rq_empty_breaks zero one vnext dnext mul add scaled coeff accepted factor slope n l vs y). Qed.
(** and memory is lost after an assignment to itself, or after the copy of an empty object. *)
Theorem C94_memory_refuted (hi lo : V) :
  (exists s, run poly [Make V 0 2 hi lo; Make V 1 2 hi lo; Assign V 0 0; MoveAssign V 0 1; Destroy V 0; Destroy V 1] (start 2) = HOk s /\ fst s = [None; None] /\ in_use V (snd s) = 3) /\
  (exists s, run poly [Default V 0; Copy V 1 0; Make V 2 2 hi lo; Assign V 1 2; Destroy V 0; Destroy V 1; Destroy V 2] (start 3) = HOk s /\ fst s = [None; None; None] /\ in_use V (snd s) = 3) /\
  (exists s, run q [Make V 0 2 hi lo; Make V 1 2 hi lo; Assign V 0 0; Assign V 0 1; Destroy V 0; Destroy V 1] (start 2) = HOk s /\ fst s = [None; None] /\ in_use V (snd s) = 5) /\
  (exists s, run rq [Make V 0 2 hi lo; Make V 1 2 hi lo; Assign V 0 0; Assign V 0 1; Destroy V 0; Destroy V 1] (start 2) = HOk s /\ fst s = [None; None] /\ in_use V (snd s) = 1).
Proof. exact (all_lost zero one vnext dnext mul add scaled coeff inside accepted factor slope hi lo). Qed.
End Numbers.
Print Assumptions C94_polynomials.
Print Assumptions C94_checked_polynomials.
Print Assumptions C94_radial.
Print Assumptions C94_checked_radial.
Print Assumptions C94_independent.
Print Assumptions C94_rejected.
Print Assumptions C94_default_breaks.
Print Assumptions C94_of_empty.
Print Assumptions C94_to_itself_loses.
Print Assumptions C94_to_itself_breaks.
Print Assumptions C94_from_empty_breaks.
Print Assumptions C94_empty_breaks.
Print Assumptions C94_memory_refuted.

(** With real numbers: whatever happened before, the tables of an object built for a distance are
    those of C51 and C52, which depend on size, radii and distance only. *)
Theorem C94_real_radial n l vs : meaning_all R (Raw R) (fun _ _ _ => true) l (repeat None n) = Some vs ->
  exists s, run R _ real_q l (start R _ n) = HOk s /\ forall x m hi lo r, holds R vs x = Some (Full R m hi lo (Some r)) ->
  exists v d, seen R _ real_q s x = HOk (m, [], [v; d]) /\ forall old, sized m old -> mq_build m hi lo r old = Ok (v, d).
Proof. exact (real_q_ok n l vs). Qed.
Print Assumptions C94_real_radial.
Theorem C94_real_checked_radial n l vs : meaning_all R (Empty R) r_accepted l (repeat None n) = Some vs ->
  exists s, run R _ real_rq l (start R _ n) = HOk s /\ forall x m hi lo r, holds R vs x = Some (Full R m hi lo (Some r)) ->
  exists v d, seen R _ real_rq s x = HOk (m, [hi; lo], [v; d]) /\ forall old, sized m old -> rq_build m hi lo r old = Ok (v, d).
Proof. exact (real_rq_ok n l vs). Qed.
Print Assumptions C94_real_checked_radial.
Theorem C94_real_polynomials n l vs : meaning_all R (Empty R) (fun _ _ _ => true) l (repeat None n) = Some vs ->
  exists s, run R _ real_poly l (start R _ n) = HOk s /\ forall x m hi lo r, holds R vs x = Some (Full R m hi lo (Some r)) ->
  exists v d e, seen R _ real_poly s x = HOk (m, [], [v; d; e]) /\ forall old, sized m old -> poly_build m hi lo r old = Ok (v, d, e).
Proof. exact (real_poly_ok n l vs). Qed.
Print Assumptions C94_real_polynomials.
Theorem C94_real_checked_polynomials n l vs : meaning_all R (Empty R) r_accepted l (repeat None n) = Some vs ->
  exists s, run R _ real_rb l (start R _ n) = HOk s /\ forall x m hi lo r, holds R vs x = Some (Full R m hi lo (Some r)) ->
  exists v d e, seen R _ real_rb s x = HOk (m, [hi; lo], [v; d; e]) /\ forall old, sized m old -> rb_build m hi lo r old = Ok (v, d, e).
Proof. exact (real_rb_ok n l vs). Qed.
Print Assumptions C94_real_checked_polynomials.

(** Cases, with integers. *)
Definition z_in (hi lo r : Z) : bool := ((lo <=? r) && (r <? hi))%Z.
Definition z_ok (hi lo r : Z) : bool := ((lo <=? r) && (r <=? hi))%Z.
Definition z_poly := poly_class Z 0%Z 1%Z (fun u a b => 2 * u * a - b)%Z (fun u v a b => 2 * v + 2 * u * a - b)%Z Z.mul (fun hi lo r => r - lo)%Z (fun _ _ => 3%Z) z_in.
Definition z_rb := rb_class Z 0%Z 1%Z (fun u a b => 2 * u * a - b)%Z (fun u v a b => 2 * v + 2 * u * a - b)%Z Z.mul (fun hi lo r => r - lo)%Z (fun _ _ => 3%Z) z_ok.
Definition z_q := q_class Z 0%Z 1%Z (fun u a b => 2 * u * a - b)%Z (fun u v a b => 2 * v + 2 * u * a - b)%Z Z.mul Z.add (fun hi lo r => r - lo)%Z (fun _ _ => 3%Z) z_in (fun hi lo r => hi - r)%Z (fun _ _ _ => -1)%Z.
Definition z_rq := rq_class Z 0%Z 1%Z (fun u a b => 2 * u * a - b)%Z (fun u v a b => 2 * v + 2 * u * a - b)%Z Z.mul Z.add (fun hi lo r => r - lo)%Z (fun _ _ => 3%Z) z_ok (fun hi lo r => hi - r)%Z (fun _ _ _ => -1)%Z.
Definition z_program : list (command Z) := [Make Z 0 4 9 1; Build Z 0 3; Copy Z 1 0; Make Z 2 2 5 0; MoveAssign Z 2 1; Build Z 0 4; Assign Z 1 0; Destroy Z 0]%Z.
Definition z_seen {O} (C : class Z O) (l : list (command Z)) : hres (list (hres (view Z)) * nat) :=
  hbind (run Z O C l (start Z O 3)) (fun s => HOk (map (seen Z O C s) [0; 1; 2], in_use Z (snd s))).
Example C94_case_meaning :
  meaning_all Z (Raw Z) (fun _ _ _ => true) z_program (repeat None 3) = Some [None; Some (Full Z 4 9 1 (Some 4)); Some (Full Z 4 9 1 (Some 3))]%Z /\
  meaning_all Z (Empty Z) z_ok z_program (repeat None 3) = Some [None; Some (Full Z 4 9 1 (Some 4)); Some (Full Z 4 9 1 (Some 3))]%Z.
Proof. vm_compute. split; reflexivity. Qed.
Example C94_case_radial : z_seen z_q z_program = HOk ([HErr NoObject; HOk (4%nat, [], [[5; 15; 85; 495]; [-1; 12; 163; 1476]]); HOk (4%nat, [], [[6; 12; 42; 156]; [-1; 16; 137; 784]])]%Z, 10).
Proof. vm_compute. reflexivity. Qed.
Example C94_case_checked_radial : z_seen z_rq z_program = HOk ([HErr NoObject; HOk (4%nat, [9; 1], [[5; 15; 85; 495]; [-1; 12; 163; 1476]]); HOk (4%nat, [9; 1], [[6; 12; 42; 156]; [-1; 16; 137; 784]])]%Z, 12).
Proof. vm_compute. reflexivity. Qed.
Example C94_case_polynomials : z_seen z_poly (z_program ++ [Build Z 1 9%Z]) = HOk ([HErr NoObject; HOk (4%nat, [], [[0; 0; 0; 0]; [0; 0; 0; 0]; [0; 0; 0; 0]]); HOk (4%nat, [], [[1; 2; 7; 26]; [0; 1; 8; 45]; [0; 3; 24; 135]])]%Z, 6).
Proof. vm_compute. reflexivity. Qed.
Example C94_case_checked_polynomials : z_seen z_rb (z_program ++ [Move Z 0 2; Build Z 1 9%Z]) = HOk ([HOk (4%nat, [9; 1], [[1; 2; 7; 26]; [0; 1; 8; 45]; [0; 3; 24; 135]]);
  HOk (4%nat, [9; 1], [[1; 8; 127; 2024]; [0; 1; 32; 765]; [0; 3; 96; 2295]]); HOk (0%nat, [0; 0], [])]%Z, 6).
Proof. vm_compute. reflexivity. Qed.
Example C94_case_rejected : z_seen z_rb (z_program ++ [Build Z 1 10%Z]) = HErr Aborted /\ z_seen z_rq (z_program ++ [Build Z 1 0%Z]) = HErr Aborted.
Proof. vm_compute. split; reflexivity. Qed.
Example C94_case_default : meaning_all Z (Raw Z) (fun _ _ _ => true) (z_program ++ [Default Z 0]) (repeat None 3) = Some [Some (Raw Z); Some (Full Z 4 9 1 (Some 4)); Some (Full Z 4 9 1 (Some 3))]%Z /\
  z_seen z_q (z_program ++ [Default Z 0; Destroy Z 0]) = HErr Uninitialised.
Proof. vm_compute. split; reflexivity. Qed.
Example C94_case_to_itself : z_seen z_poly (z_program ++ [Assign Z 1 1]) = HOk ([HErr NoObject; HOk (0%nat, [], []); HOk (4%nat, [], [[1; 2; 7; 26]; [0; 1; 8; 45]; [0; 3; 24; 135]])]%Z, 6) /\
  z_seen z_rb (z_program ++ [Assign Z 1 1; Destroy Z 1]) = HErr DoubleFree.
Proof. vm_compute. split; reflexivity. Qed.
Example C94_case_empty : meaning_all Z (Empty Z) z_ok (z_program ++ [Move Z 0 2]) (repeat None 3) = Some [Some (Full Z 4 9 1 (Some 3)); Some (Full Z 4 9 1 (Some 4)); Some (Empty Z)]%Z /\
  z_seen z_rb (z_program ++ [Move Z 0 2; Assign Z 1 2; Destroy Z 1]) = HErr DoubleFree /\ z_seen z_rq (z_program ++ [Move Z 0 2; Assign Z 1 2]) = HErr NullDeref /\
  z_seen z_rq (z_program ++ [Move Z 0 2; Build Z 2 0%Z]) = HErr NullDeref /\ z_seen z_rq (z_program ++ [Move Z 0 2; Build Z 2 1%Z]) = HErr Aborted.
Proof. vm_compute. repeat split; reflexivity. Qed.
