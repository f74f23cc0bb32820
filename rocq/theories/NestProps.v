(** Nested arrays: the properties. *)
From Verif Require Import NestModel NestSpec NestProofs.
Local Open Scope nat_scope.
Local Open Scope list_scope.

(** ** C84 *)
(** For every heap, all sizes and any assignments within them, the array is allocated, older
    memory stays as it was, there is one block for each prefix of an index, and each element
    reads as the last value assigned to it: before any assignment zero if asked for, and
    without a value otherwise.  Indices outside the sizes are errors.  Released with the sizes it was
    allocated with, everything is given back and nothing else. *)
Theorem C84_life dims init h l : dims <> [] -> Forall (fun e => within dims (fst e)) l ->
  exists b h1 h2, allocate_nested dims init h = HOk (b, h1) /\ writes h1 b l = HOk h2 /\
    firstn (length h) h1 = h /\ length h1 = length h + block_count dims /\
    firstn (length h) h2 = h /\
    (forall x, length h <= x < length h1 -> alive h1 x) /\
    (forall idx, within dims idx -> gives (read_at h2 b idx) (last_written idx l (if init then Some 0%Z else None))) /\
    (forall idx, length idx = length dims -> ~ within dims idx ->
       read_at h2 b idx = HErr OutOfBounds /\ forall v, write_at h2 b idx v = HErr OutOfBounds) /\
    exists h3, free_nested (removelast dims) h2 b = HOk h3 /\ restored h h3.
Proof. exact (life dims init h l). Qed.
Print Assumptions C84_life.

(** The functions for three, four and five dimensions. *)
Theorem C84_dimensions n0 n1 n2 n3 n4 init h :
  (exists b h1 h2, allocate3dArray n0 n1 n2 init h = HOk (b, h1) /\ free3dArray b n0 n1 h1 = HOk h2 /\ restored h h2) /\
  (exists b h1 h2, allocate4dArray n0 n1 n2 n3 init h = HOk (b, h1) /\ free4dArray b n0 n1 n2 h1 = HOk h2 /\ restored h h2) /\
  (exists b h1 h2, allocate5dArray n0 n1 n2 n3 n4 init h = HOk (b, h1) /\ free5dArray b n0 n1 n2 n3 h1 = HOk h2 /\ restored h h2).
Proof. exact (life_dimensions n0 n1 n2 n3 n4 init h). Qed.
Print Assumptions C84_dimensions.

(** Released with any other sizes, the run fails or memory is left behind. *)
Theorem C84_other_sizes dims init h l sizes b h1 h2 h3 :
  (forall n, In n dims -> 0 < n) -> S (length sizes) = length dims -> sizes <> removelast dims ->
  Forall (fun e => within dims (fst e)) l -> allocate_nested dims init h = HOk (b, h1) -> writes h1 b l = HOk h2 ->
  free_nested sizes h2 b = HOk h3 -> leaks h h3.
Proof. exact (life_other dims init h l sizes b h1 h2 h3). Qed.
Print Assumptions C84_other_sizes.

(** Printing an array allocated with zeros lists every index once, in order, with its value. *)
Theorem C84_show dims h l b h1 h2 : dims <> [] -> Forall (fun e => within dims (fst e)) l ->
  allocate_nested dims true h = HOk (b, h1) -> writes h1 b l = HOk h2 ->
  show_nested dims h2 b = HOk (map (fun idx => (idx, match last_written idx l (Some 0%Z) with Some v => v | None => 0%Z end)) (indices dims)).
Proof. exact (show_life dims h l b h1 h2). Qed.
Print Assumptions C84_show.

(** Tests: an array of sizes 2, 1, 2 with two assignments next to an older block, printed; released with
    its sizes, with too few and with too many rows. *)
Definition demo_heap : heap := [Some [Some 7%Z]].
Definition demo_run (sizes : list nat) : hres heap :=
  hbind (allocate_nested [2; 1; 2] true demo_heap) (fun '(b, h) =>
  hbind (writes h b [([1; 0; 1], 5%Z); ([0; 0; 0], 6%Z)]) (fun h => free_nested sizes h b)).
Example C84_case_show :
  hbind (allocate_nested [2; 1; 2] true demo_heap) (fun '(b, h) =>
  hbind (writes h b [([1; 0; 1], 5%Z); ([0; 0; 0], 6%Z)]) (fun h => show_nested [2; 1; 2] h b)) =
  HOk [([0; 0; 0], 6%Z); ([0; 0; 1], 0%Z); ([1; 0; 0], 0%Z); ([1; 0; 1], 5%Z)].
Proof. reflexivity. Qed.
Example C84_case_released : demo_run [2; 1] = HOk [Some [Some 7%Z]; None; None; None; None; None].
Proof. reflexivity. Qed.
Example C84_case_fewer : demo_run [1; 1] = HOk [Some [Some 7%Z]; None; None; None; Some [Some 5%Z]; Some [Some 0%Z; Some 5%Z]].
Proof. reflexivity. Qed.
Example C84_case_more : demo_run [3; 1] = HErr OutOfBounds /\ demo_run [2; 2] = HErr OutOfBounds.
Proof. split; reflexivity. Qed.
Example C84_case_plain :
  hbind (allocate_nested [2; 1; 2] false demo_heap) (fun '(b, h) => read_at h b [1; 0; 1]) = HErr Uninitialised /\ block_count [2; 1; 2] = 5.
Proof. split; reflexivity. Qed.
