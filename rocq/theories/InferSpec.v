(** Independent vocabulary for the input of a force field. *)
From Verif Require Import Vec SeSpec SiteIndexSpec StructSpec NeighSpec.
Open Scope nat_scope.

(** Columns are given as elements with widths.  Every element has its selected atoms first and then
    free columns. *)
Definition slots (sel : Z -> list nat) (columns : list (Z * nat)) : list (option nat) :=
  concat (map (fun zw => map Some (sel (fst zw)) ++ repeat None (snd zw - length (sel (fst zw)))) columns).

(** Every column group is wide enough for the neighbours of atom [c]. *)
Definition fits {P D} (dist : P -> P -> D) (leb : D -> D -> bool) (atoms : list (Z * P)) (rcut : D) (columns : list (Z * nat)) (c : nat) : Prop :=
  forall zw, In zw columns -> exists n, number (of_element (fst zw) (near dist leb atoms rcut) c) atoms n /\ n <= snd zw.

(** The sites with their copies by the lattice vectors of a centred box. *)
Definition copies (A B C : vec) (s0 s1 s2 : Z) (sites atoms : list (Z * vec)) : Prop :=
  NoDup (map snd atoms) /\
  forall a, In a atoms <-> exists s (p q r : Z), In s sites /\ in_box s0 s1 s2 (p, q, r) /\ a = (fst s, vadd (snd s) (comb A B C (IZR p) (IZR q) (IZR r))).

(** The sites of the listed elements, element by element. *)
Definition grouped {P} (elements : list Z) (sites : list (Z * P)) : list (Z * P) :=
  flat_map (fun z => filter (fun s => (fst s =? z)%Z) sites) elements.

(** The element occurs. *)
Definition present {P} (sites : list (Z * P)) (z : Z) : bool := existsb (fun s => (fst s =? z)%Z) sites.

Open Scope R_scope.
(** The weight of a neighbour at distance [r]. *)
Definition weight_is (rc rs r s : R) : Prop :=
  (r <= rs -> s = / r) /\
  (rs < r < rc -> let u := (r - rs) / (rc - rs) in s = / r * (1 - 10 * u ^ 3 + 15 * u ^ 4 - 6 * u ^ 5)) /\
  (rs < rc <= r -> s = / r).
Definition length_of (d : vec) : R := sqrt (vx d * vx d + vy d * vy d + vz d * vz d).
Definition environment (rc rs : R) (d : vec) (row : list R) : Prop :=
  exists s, weight_is rc rs (length_of d) s /\
  row = [s; s * vx d / length_of d; s * vy d / length_of d; s * vz d / length_of d].
(** [row] is [raw] less the averages, in units of the deviations. *)
Definition normalized (avg std raw row : list R) : Prop :=
  length row = 4%nat /\ forall a, (a < 4)%nat -> entry a row = (entry a raw - entry a avg) / entry a std.

(** What the four arrays hold in a column of the row of atom [cen], given the atom in the column. *)
Section Slot.
Variables (A B C : vec) (sites atoms : list (Z * vec)) (rc rs : R) (avg std : list R) (cen : Z * vec) (E : vec -> list R).
Definition slot_position (o : option nat) (v : vec) : Prop :=
  match o with
  | Some j => exists a, nth_error atoms j = Some a /\ v = vsub (snd a) (snd cen)
  | None => v = (0, 0, 0)
  end.
Definition slot_index (o : option nat) (n : nat) : Prop :=
  match o with
  | Some j => exists a m, nth_error atoms j = Some a /\ image_of_site A B C sites a m /\ n = (m + 1)%nat
  | None => n = 0%nat \/ exists m s, nth_error sites m = Some s /\ lattice_image A B C (snd s) (0, 0, 0) /\ n = (m + 1)%nat
  end.
Definition slot_environment (o : option nat) (row : list R) : Prop :=
  match o with
  | Some j => exists a, nth_error atoms j = Some a /\ normalized avg std (E (vsub (snd a) (snd cen))) row
  | None => normalized avg std [0; 0; 0; 0] row
  end.
(** Derivatives with respect to the position of the centre (not on the cutoff sphere, where the
    weight jumps). *)
Definition slot_derivative (o : option nat) (t : list (list R)) : Prop :=
  match o with
  | Some j => exists a, nth_error atoms j = Some a /\
      (length_of (vsub (snd a) (snd cen)) < rc -> forall x b, (x < 4)%nat -> (b < 3)%nat ->
       partial b (fun p => (entry x (E (vsub (snd a) p)) - entry x avg) / entry x std) (snd cen) (entry2 x b t))
  | None => forall x b, entry2 x b t = 0
  end.
End Slot.

(** The row of atom [c] in the four arrays: relative positions and indices have the columns
    [columns], descriptors and their derivatives the columns [columns'].  Of every element the
    neighbours of [c] are selected, nearest first. *)
Definition row_holds (A B C : vec) (sites atoms : list (Z * vec)) (rc : R) (dist : vec -> vec -> R) (leb : R -> R -> bool)
    (columns columns' : list (Z * nat)) (c : nat) (cen : Z * vec) (avg std : list R) (E : vec -> list R)
    (pos : list vec) (env : list (list R)) (der : list (list (list R))) (ind : list nat) : Prop :=
  exists sel, (forall zw, In zw columns -> pair_neighbours dist leb atoms rc (fst zw) c (sel (fst zw)) /\ (length (sel (fst zw)) <= snd zw)%nat) /\
  Forall2 (slot_position atoms cen) (slots sel columns) pos /\ Forall2 (slot_index A B C sites atoms) (slots sel columns) ind /\
  Forall2 (slot_environment atoms avg std cen E) (slots sel columns') env /\ Forall2 (slot_derivative atoms rc avg std cen E) (slots sel columns') der.
