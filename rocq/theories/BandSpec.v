(** Vocabulary for the band edge properties. *)
From Coq Require Import QArith Qround Qabs.
From Verif Require Import Text BandModel.
Open Scope nat_scope.
Open Scope list_scope.

(** Eigenvalue [x] of spin [s] at k-point number [k] and band number [b], counted from 1. *)
Definition eigenvalue (t : table) (s : spin) (k b : nat) (x : Q) : Prop :=
  0 < k /\ 0 < b /\ exists r, nth_error (rows t s) (k - 1) = Some r /\ nth_error r (b - 1) = Some x.

(** All k-points have [n] bands, and there is at least one k-point. *)
Definition rectangular (t : table) (n : nat) : Prop :=
  t_up t <> [] /\ forall s r, In r (rows t s) -> List.length r = n.

(** Band [b] of spin [s] has values clearly below and clearly above the Fermi level. *)
Definition crosses (t : table) (ef : Q) (s : spin) (b : nat) : Prop :=
  (exists k x, eigenvalue t s k b x /\ (x < ef - (1 # 10000))%Q) /\ (exists k x, eigenvalue t s k b x /\ (ef + (1 # 10000) < x)%Q).

(** [m] is the lowest level at or above, the highest at or below, the Fermi level. *)
Definition lowest_above (t : table) (ef m : Q) : Prop :=
  (exists s k b, eigenvalue t s k b m) /\ (ef <= m)%Q /\ forall s k b x, eigenvalue t s k b x -> (ef <= x)%Q -> (m <= x)%Q.
Definition highest_below (t : table) (ef m : Q) : Prop :=
  (exists s k b, eigenvalue t s k b m) /\ (m <= ef)%Q /\ forall s k b x, eigenvalue t s k b x -> (x <= ef)%Q -> (x <= m)%Q.

(** All eigenvalues have at most four decimals. *)
Definition four_decimals (t : table) : Prop := forall s k b x, eigenvalue t s k b x -> exists n, (x == n # 10000)%Q.

(** Scan order: spin up first, then k-points, then bands. *)
Definition before (p q : spin * nat * nat) : Prop :=
  let '(s, k, b) := p in let '(s', k', b') := q in
  (s = Up /\ s' = Down) \/ (s = s' /\ (k < k' \/ (k = k' /\ b < b'))).

(** Bands, in order, of k-point number [k] with a level within 0.001 of [e]. *)
Definition close_bands (t : table) (s : spin) (k : nat) (e : Q) (n : nat) (bs : list nat) : Prop :=
  exists p, bs = filter p (seq 1 n) /\
  forall b, 0 < b <= n -> (p b = true <-> exists x, eigenvalue t s k b x /\ (Qabs (x - e) < 1 # 1000)%Q).

(** ** Report files *)
(** One block: a header line, the lines with the numbers, other lines. *)
Record part : Type := mkPart { p_header : string; p_numbers : list string; p_rest : list string }.
Definition part_lines (p : part) : list string := p_header p :: p_numbers p ++ p_rest p.
(** A report: the lines before the first block, then the blocks. *)
Definition is_header (l : string) : bool := contains "eigen energies, in eV" l.
Definition well_formed (pre : list string) (ps : list part) (num_lines : nat) : Prop :=
  Forall (fun l => is_header l = false) pre /\
  Forall (fun p => is_header (p_header p) = true /\ Forall (fun l => is_header l = false) (p_numbers p ++ p_rest p) /\ List.length (p_numbers p) = num_lines) ps.

(** The first line of the report with [aim] in it ends with a token standing for [n]. *)
Definition states (int_of : string -> result nat) (lines : list string) (aim : string) (n : nat) : Prop :=
  exists a l b ts t, lines = a ++ l :: b /\ Forall (fun x => contains aim x = false) a /\ contains aim l = true /\ split_ws l = ts ++ [t] /\ int_of t = Ok n.

(** [y] is [x] rounded to multiples of [1 / s]: a nearest one, and of two equally near the even one. *)
Definition rounds_to (s : positive) (x y : Q) : Prop :=
  exists n : Z, (y == n # s)%Q /\ (Qabs (x - y) <= 1 # (2 * s))%Q /\ ((Qabs (x - y) == 1 # (2 * s))%Q -> Z.even n = true).
