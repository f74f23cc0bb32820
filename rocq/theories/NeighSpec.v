(** Independent vocabulary for neighbour tables. *)
From Verif Require Import Vec.
From Coq Require Export Sorting.Permutation Sorting.Sorted.
From Coq Require String.
Open Scope nat_scope.

Definition total_preorder {D} (leb : D -> D -> bool) : Prop :=
  (forall a b, leb a b = true \/ leb b a = true) /\ (forall a b c, leb a b = true -> leb b c = true -> leb a c = true).

(** [argsort] returns the positions in an order that makes the values ascend. *)
Definition sorts {D} (leb : D -> D -> bool) (argsort : list D -> list nat) : Prop :=
  forall ds, Permutation (argsort ds) (seq 0 (length ds)) /\
  StronglySorted (fun i j => forall a b, nth_error ds i = Some a -> nth_error ds j = Some b -> leb a b = true) (argsort ds).

(** [sel] lists, once each, the positions of the atoms that are [good]. *)
Definition lists {A} (good : nat -> A -> Prop) (atoms : list A) (sel : list nat) : Prop :=
  NoDup sel /\ forall j, In j sel <-> exists a, nth_error atoms j = Some a /\ good j a.
(** There are n good atoms. *)
Definition number {A} (good : nat -> A -> Prop) (atoms : list A) (n : nat) : Prop := exists sel, lists good atoms sel /\ length sel = n.

Section Spec.
Context {P D : Type}.
Variables (dist : P -> P -> D) (leb : D -> D -> bool).
Definition nearest_first (atoms : list (Z * P)) (centre : P) (sel : list nat) : Prop :=
  StronglySorted (fun i j => forall a b, nth_error atoms i = Some a -> nth_error atoms j = Some b ->
    leb (dist (snd a) centre) (dist (snd b) centre) = true) sel.
Definition within (centre : P) (rcut : D) (_ : nat) (a : Z * P) : Prop := leb (dist (snd a) centre) rcut = true.
Definition strictly_within (centre : P) (rcut : D) (_ : nat) (a : Z * P) : Prop := leb rcut (dist (snd a) centre) = false.
Definition on_cutoff (centre : P) (rcut : D) (a : Z * P) : Prop := leb (dist (snd a) centre) rcut = true /\ leb rcut (dist (snd a) centre) = true.
(** The selection for the centre with index [c]. *)
Definition neighbours (atoms : list (Z * P)) (rcut : D) (c : nat) (sel : list nat) : Prop :=
  exists centre, nth_error atoms c = Some centre /\ lists (within (snd centre) rcut) atoms sel /\ nearest_first atoms (snd centre) sel.
End Spec.

(** [row] shows [f] of the selected atoms in order, then [zero] up to width [w]. *)
Definition shows {A B} (f : B -> A) (zero : A) (w : nat) (atoms : list B) (sel : list nat) (row : list A) : Prop :=
  exists vals, Forall2 (fun j v => exists a, nth_error atoms j = Some a /\ v = f a) sel vals /\
  length sel <= w /\ row = vals ++ repeat zero (w - length sel).

(** [w] is the largest of the lengths, 0 if there are none. *)
Definition widest {A} (sels : list (list A)) (w : nat) : Prop :=
  (forall s, In s sels -> length s <= w) /\ (w = 0 \/ exists s, In s sels /\ length s = w).

(** [m] is the largest of the numbers of good atoms over the centres, 0 if there are none. *)
Definition largest_number {A} (good : nat -> nat -> A -> Prop) (atoms : list A) (centres : list nat) (m : nat) : Prop :=
  (forall c, In c centres -> exists n, number (good c) atoms n /\ n <= m) /\
  (m = 0 \/ exists c, In c centres /\ number (good c) atoms m).

(** No two positions differ by a lattice vector. *)
Definition distinct_sites (A B C : vec) (positions : list vec) : Prop :=
  forall i j p q (a b c : Z), nth_error positions i = Some p -> nth_error positions j = Some q ->
  q = vadd p (comb A B C (IZR a) (IZR b) (IZR c)) -> i = j.

(** What a registration history last recorded under a name. *)
Definition last_registered {V} (h : list (String.string * V)) (name : String.string) (v : V) : Prop :=
  exists h1 h2, h = h1 ++ (name, v) :: h2 /\ Forall (fun e => fst e <> name) h2.

(** Atoms strictly within the cutoff of atom [c] ([leb] turned around is the strict order), and
    those of one element other than [c] itself. *)
Definition strict_near {P D} (dist : P -> P -> D) (leb : D -> D -> bool) (atoms : list (Z * P)) (rcut : D) (c j : nat) (a : Z * P) : Prop :=
  exists cen, nth_error atoms c = Some cen /\ strictly_within dist leb (snd cen) rcut j a.
Definition near {P D} (dist : P -> P -> D) (leb : D -> D -> bool) (atoms : list (Z * P)) (rcut : D) (c j : nat) (a : Z * P) : Prop :=
  exists cen, nth_error atoms c = Some cen /\ within dist leb (snd cen) rcut j a.
Definition of_element {P} (z : Z) (good : nat -> nat -> Z * P -> Prop) (c j : nat) (a : Z * P) : Prop := good c j a /\ fst a = z /\ j <> c.

(** Nothing is as close to atom [c] as itself, and it is within its own cutoff. *)
Definition isolated {P D} (dist : P -> P -> D) (leb : D -> D -> bool) (atoms : list (Z * P)) (rcut : D) (c : nat) : Prop :=
  exists cen, nth_error atoms c = Some cen /\ leb (dist (snd cen) (snd cen)) rcut = true /\
  forall j a, j <> c -> nth_error atoms j = Some a -> leb (dist (snd a) (snd cen)) (dist (snd cen) (snd cen)) = false.

(** A table row for centre [c]: atomic numbers, distances and positions of the selected atoms. *)
Definition shows_row {P D} (dist : P -> P -> D) (zeroP : P) (zeroD : D) (atoms : list (Z * P)) (w c : nat) (sel : list nat) (row : list Z * list D * list P) : Prop :=
  exists cen, nth_error atoms c = Some cen /\ shows fst 0%Z w atoms sel (fst (fst row)) /\
  shows (fun a => dist (snd a) (snd cen)) zeroD w atoms sel (snd (fst row)) /\ shows snd zeroP w atoms sel (snd row).

(** The centres of an element, in order, and the neighbours of another element. *)
Definition centres_of {P} (atoms : list (Z * P)) (z : Z) (centres : list nat) : list nat :=
  filter (fun c => match nth_error atoms c with Some a => (fst a =? z)%Z | None => false end) centres.
Definition pair_neighbours {P D} (dist : P -> P -> D) (leb : D -> D -> bool) (atoms : list (Z * P)) (rcut : D) (z : Z) (c : nat) (sel : list nat) : Prop :=
  lists (of_element z (near dist leb atoms rcut) c) atoms sel /\
  exists cen, nth_error atoms c = Some cen /\ nearest_first dist leb atoms (snd cen) sel.

(** The atom is a lattice image of site [i] (same element). *)
Definition image_of_site (A B C : vec) (sites : list (Z * vec)) (a : Z * vec) (i : nat) : Prop :=
  exists s (p q r : Z), nth_error sites i = Some s /\ a = (fst s, vadd (snd s) (comb A B C (IZR p) (IZR q) (IZR r))).

(** The copies along the first vector reach the cutoff: (s - 1) / 2 times the distance of the
    planes spanned by the other two is at least [rcut] (squared to avoid roots). *)
Definition reaches (rcut : R) (s : Z) (A B C : vec) : Prop :=
  (4 * (rcut * rcut * norm2 (cross B C)) <= (IZR s - 1) * (IZR s - 1) * (det A B C * det A B C))%R.
Definition in_cell (A B C p : vec) : Prop :=
  exists f0 f1 f2, (0 <= f0 < 1)%R /\ (0 <= f1 < 1)%R /\ (0 <= f2 < 1)%R /\ p = comb A B C f0 f1 f2.

(** No two different sites are lattice images of each other (up to the tolerance [tol]). *)
Definition separated (image : vec -> vec -> Prop) (positions : list vec) : Prop :=
  forall i j p q, nth_error positions i = Some p -> nth_error positions j = Some q -> image p q -> i = j.

(** The index entries of centre [c] for neighbours of element [z] in [w] columns: the indices of
    the neighbours, nearest first, then [pad] for a while, then 0. *)
Definition index_row {P D} (dist : P -> P -> D) (leb : D -> D -> bool) (atoms : list (Z * P)) (rcut : D) (index : P -> nat) (pad : nat)
    (c : nat) (zw : Z * nat) (part : list nat) : Prop :=
  exists sel real vals, pair_neighbours dist leb atoms rcut (fst zw) c sel /\ length sel <= real <= snd zw /\
  Forall2 (fun j v => exists a, nth_error atoms j = Some a /\ v = index (snd a)) sel vals /\
  part = vals ++ repeat pad (real - length sel) ++ repeat 0 (snd zw - real).
