(** Properties of the random perturbation of structures (matersdk/adalearn/generator/perturbation.py). *)
From Verif Require Import PertModel PertSpec PertProofs PertFinal PertBounds.
From Coq Require Import Psatz.
Local Open Scope R_scope.

(** ** C77 What a perturbed structure is *)

(** As long as the strained cells are right-handed, [pert_num] structures are returned, and each is
    the given structure strained, its atoms displaced, and then rotated so that the first lattice
    vector lies along x and the second in the xy plane; the order of the atoms and their elements stay. *)
Theorem C77_structures :
  forall qr, decomposition qr -> forall (A : Type) (s : structure A) n f d rand randn, 0 <= f -> 0 <= d \/ cart_coords s = [] ->
  (forall j, (j < n)%nat -> 0 < volume (S6 f (rand j) (row0 (lattice s))) (S6 f (rand j) (row1 (lattice s))) (S6 f (rand j) (row2 (lattice s)))) ->
  exists outs, perturb qr s n f d rand randn = Ok outs /\ length outs = n /\
  forall j out, nth_error outs j = Some out -> exists W, rotation W /\
    standard_cell (row0 (lattice out)) (row1 (lattice out)) (row2 (lattice out)) /\
    lattice out = (W (S6 f (rand j) (row0 (lattice s))), W (S6 f (rand j) (row1 (lattice s))), W (S6 f (rand j) (row2 (lattice s)))) /\
    species out = species s /\ length (cart_coords out) = length (cart_coords s) /\
    forall k v, nth_error (cart_coords s) k = Some v -> nth_error (cart_coords out) k = Some (W (plus3 (S6 f (rand j) v) (times3 (d / sqrt 3) (randn j k)))).
Proof. exact (fun qr Q A s n f d rand randn F D => proj1 (all_ok qr Q s n f d rand randn F D)). Qed.
Print Assumptions C77_structures.

(** An atom keeps its fractional coordinates up to a displacement whose length is the requested
    distance times the length of its random vector over the square root of three. *)
Theorem C77_fractional :
  forall (A : Type) (s : structure A) f d e randn out, 0 <= d -> perturbed s f d e randn out ->
  forall k v x y z, nth_error (cart_coords s) k = Some v ->
  v = plus3 (times3 x (row0 (lattice s))) (plus3 (times3 y (row1 (lattice s))) (times3 z (row2 (lattice s)))) ->
  exists u, length3 u = d / sqrt 3 * length3 (randn k) /\
  nth_error (cart_coords out) k = Some (plus3 (plus3 (times3 x (row0 (lattice out))) (plus3 (times3 y (row1 (lattice out))) (times3 z (row2 (lattice out))))) u).
Proof. exact (@fractional). Qed.
Print Assumptions C77_fractional.

(** No edge of the cell changes its length by more than twice the fraction. *)
Theorem C77_edges :
  forall (A : Type) (s : structure A) f d e randn out, 0 <= f -> uniform e -> perturbed s f d e randn out ->
  Rabs (length3 (row0 (lattice out)) - length3 (row0 (lattice s))) <= 2 * f * length3 (row0 (lattice s)) /\
  Rabs (length3 (row1 (lattice out)) - length3 (row1 (lattice s))) <= 2 * f * length3 (row1 (lattice s)) /\
  Rabs (length3 (row2 (lattice out)) - length3 (row2 (lattice s))) <= 2 * f * length3 (row2 (lattice s)).
Proof. exact (@edges). Qed.
Print Assumptions C77_edges.

(** The result does not depend on which orthogonal decomposition the library returns. *)
Theorem C77_any_decomposition :
  forall (A : Type) qr qr' (s : structure A) n f d rand randn, decomposition qr -> decomposition qr' ->
  (forall j, (j < n)%nat -> volume (S6 f (rand j) (row0 (lattice s))) (S6 f (rand j) (row1 (lattice s))) (S6 f (rand j) (row2 (lattice s))) <> 0) ->
  perturb qr s n f d rand randn = perturb qr' s n f d rand randn.
Proof. exact (@independent). Qed.
Print Assumptions C77_any_decomposition.

(** A decomposition exists (orthogonalisation), and a cubic cell with two atoms is strained by 3 %. *)
Definition cubic : structure nat := {| lattice := ((2, 0, 0), (0, 2, 0), (0, 0, 2)); species := [3; 9]%nat; cart_coords := [(0, 0, 0); (1, 1, 1)] |}.
Definition middle : six := {| r0 := 1 / 4; r1 := 1 / 2; r2 := 3 / 4; r3 := 1 / 2; r4 := 1 / 2; r5 := 0 |}.
Example C77_case : decomposition gs /\ uniform middle /\ 0 < volume (S6 (3 / 100) middle (2, 0, 0)) (S6 (3 / 100) middle (0, 2, 0)) (S6 (3 / 100) middle (0, 0, 2)) /\
  exists out, perturb gs cubic 1 (3 / 100) (1 / 100) (fun _ => middle) (fun _ _ => (1, 0, -1)) = Ok [out].
Proof.
  assert (U : uniform middle) by (unfold uniform, middle; cbn; lra).
  assert (V : 0 < volume (S6 (3 / 100) middle (2, 0, 0)) (S6 (3 / 100) middle (0, 2, 0)) (S6 (3 / 100) middle (0, 0, 2))).
  { destruct (volume_sign (3 / 100) middle (2, 0, 0) (0, 2, 0) (0, 0, 2)) as (k & K & ->); [lra|lra|exact U|]. apply Rmult_lt_0_compat; [exact K|unfold volume; lra]. }
  split; [exact gs_ok|]. split; [exact U|]. split; [exact V|].
  destruct (all_ok gs gs_ok cubic 1 (3 / 100) (1 / 100) (fun _ => middle) (fun _ _ => (1, 0, -1))) as [H _]; [lra|left; lra|].
  destruct H as (outs & E & L & _); [intros j _; exact V|]. destruct outs as [|o [|o' outs]]; try discriminate. now exists o.
Qed.

(** ** C78 When perturbing fails *)

(** A negative fraction, or a negative distance for a structure with atoms, is refused. *)
Theorem C78_negative :
  forall qr (A : Type) (s : structure A) n f d rand randn, (0 < n)%nat ->
  (f < 0 -> perturb qr s n f d rand randn = Err RuntimeError) /\ (0 <= f -> d < 0 -> cart_coords s <> [] -> perturb qr s n f d rand randn = Err RuntimeError).
Proof. exact (fun qr A => @all_negative qr A). Qed.
Print Assumptions C78_negative.

(** For fractions below one half, whatever the random numbers: a right-handed cell always succeeds,
    a left-handed cell always ends in an assertion error. *)
Theorem C78_handedness :
  forall (A : Type) qr (s : structure A) n f d rand randn, decomposition qr -> 0 <= f < 1 / 2 -> 0 <= d \/ cart_coords s = [] -> (forall j, uniform (rand j)) ->
  (0 < volume (row0 (lattice s)) (row1 (lattice s)) (row2 (lattice s)) -> exists outs, perturb qr s n f d rand randn = Ok outs /\ length outs = n) /\
  (volume (row0 (lattice s)) (row1 (lattice s)) (row2 (lattice s)) < 0 -> (0 < n)%nat -> perturb qr s n f d rand randn = Err AssertionError).
Proof. exact (@right_handed). Qed.
Print Assumptions C78_handedness.

(** The bound one half is sharp: above it some random numbers invert every right-handed cell. *)
Theorem C78_half_refuted :
  forall (A : Type) qr (s : structure A) n f d randn, decomposition qr -> 1 / 2 < f < 2 -> 0 <= d \/ cart_coords s = [] -> (0 < n)%nat ->
  0 < volume (row0 (lattice s)) (row1 (lattice s)) (row2 (lattice s)) ->
  exists rand, (forall j, uniform (rand j)) /\ perturb qr s n f d rand randn = Err AssertionError.
Proof. exact (fun A qr s n f d randn Q F D N V => ex_intro _ (fun _ => lowest) (conj (fun _ => lowest_uniform) (half_sharp qr s n f d randn Q F D N V))). Qed.
Print Assumptions C78_half_refuted.

(** Exchanging two vectors of the cubic cell gives the same crystal in a left-handed cell. *)
Example C78_case : volume (0, 2, 0) (2, 0, 0) (0, 0, 2) < 0 /\
  perturb gs {| lattice := ((0, 2, 0), (2, 0, 0), (0, 0, 2)); species := [3; 9]%nat; cart_coords := [(0, 0, 0); (1, 1, 1)] |} 1 (3 / 100) 0 (fun _ => middle) (fun _ _ => (1, 0, -1)) = Err AssertionError.
Proof.
  assert (V : volume (0, 2, 0) (2, 0, 0) (0, 0, 2) < 0) by (unfold volume; lra). split; [exact V|].
  apply right_handed; [exact gs_ok|lra|left; lra|intros _; unfold uniform, middle; cbn; lra|exact V|lia].
Qed.
