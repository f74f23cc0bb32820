(** Independent vocabulary for the Python binding of the neighbour list. *)
From Verif Require Import Vec NbModel NbSpec NbMlffModel BindModel.
Local Open Scope Z_scope.

(** Row by row and column by column layouts in memory. *)
Definition row_major (l : list vec) : list R := flat_map (fun v => [vx v; vy v; vz v]) l.
Definition column_major (l : list vec) : list R := (map vx l ++ map vy l ++ map vz l)%list.
(** Little-endian 64 bit integers as 32 bit words, for numbers from 0 to 2^31 - 1. *)
Definition words64 (zs : list Z) : list Z := flat_map (fun z => [z; 0]) zs.

(** The structure meant by a lattice, atomic numbers and Cartesian or fractional coordinates. *)
Definition meant (A B C : vec) (zs : list Z) (xs : list vec) (is_cart : bool) (c : cell) : Prop :=
  bA c = A /\ bB c = B /\ bC c = C /\ numbers c = zs /\
  coords c = if is_cart then xs else map (fun f => comb A B C (vx f) (vy f) (vz f)) xs.

(** The element of an array at given indices, row by row. *)
Definition elem1 {T} (a : ndarray T) (n i : nat) (x : T) : Prop := nd_shape a = [n] /\ (i < n)%nat /\ nth_error (nd_data a) i = Some x.
Definition elem2 {T} (a : ndarray T) (n w i j : nat) (x : T) : Prop := nd_shape a = [n; w] /\ (i < n)%nat /\ (j < w)%nat /\ nth_error (nd_data a) (i * w + j) = Some x.
Definition vec3 (a : ndarray R) (n w i j : nat) (v : vec) : Prop :=
  nd_shape a = [n; w; 3%nat] /\ (i < n)%nat /\ (j < w)%nat /\
  nth_error (nd_data a) ((i * w + j) * 3) = Some (vx v) /\ nth_error (nd_data a) ((i * w + j) * 3 + 1) = Some (vy v) /\ nth_error (nd_data a) ((i * w + j) * 3 + 2) = Some (vz v).

(** Atom [b] displaced by the lattice vector [t], seen from atom [i]. *)
Definition displacement (c : cell) (i b : nat) (t : Z * Z * Z) (d : vec) : Prop :=
  exists xi xb, nth_error (coords c) i = Some xi /\ nth_error (coords c) b = Some xb /\ d = vsub (vadd xb (lattice_vec c t)) xi.

(** The neighbours of every atom, each with its displacement; nearest first if sorted; each once
    when every non-periodic direction is perpendicular to the periodic axes. *)
Definition neighbour_table (rcut : R) (pbc : bool * bool * bool) (c : cell) (sorted : bool) (nbrs : list (list (nat * (Z * Z * Z)))) : Prop :=
  length nbrs = length (coords c) /\
  (forall i l, nth_error nbrs i = Some l -> forall b t, In (b, t) l <-> is_neighbour rcut pbc c i b t) /\
  (aligned_pbc pbc c -> Forall (@NoDup _) nbrs) /\
  (sorted = true -> forall i l j k b t b' t' d d', nth_error nbrs i = Some l -> (j < k)%nat -> nth_error l j = Some (b, t) -> nth_error l k = Some (b', t') ->
     displacement c i b t d -> displacement c i b' t' d' -> (norm2 d <= norm2 d')%R).

(** The arrays hold the table, padded with -1 and 0. *)
Definition holds (c : cell) (umax : nat) (nbrs : list (list (nat * (Z * Z * Z)))) (r : nblist_info) : Prop :=
  let n := length (coords c) in
  r_inum r = Z.of_nat n /\ r_nghost r = 0 /\
  (forall i z, nth_error (numbers c) i = Some z -> elem1 (r_types r) n i z) /\
  forall i l, nth_error nbrs i = Some l ->
    elem1 (r_ilist r) n i (Z.of_nat i) /\ elem1 (r_numneigh r) n i (Z.of_nat (length l)) /\
    forall j, (j < umax)%nat ->
    match nth_error l j with
    | Some (b, t) => elem2 (r_firstneigh r) n umax i j (Z.of_nat b) /\ exists d, displacement c i b t d /\ vec3 (r_relative r) n umax i j d
    | None => elem2 (r_firstneigh r) n umax i j (-1) /\ vec3 (r_relative r) n umax i j (0, 0, 0)%R
    end.

(** Bytes in allocated blocks. *)
Fixpoint bytes (l : list (nat * nat)) : nat := match l with [] => 0%nat | (_, s) :: r => (s + bytes r)%nat end.
(** Every block was handed out once. *)
Definition sane (m : memory) : Prop := NoDup (map fst (live m)) /\ forall b s, In (b, s) (live m) -> (b < next m)%nat.
