(** Vocabulary for the feature of a whole structure. *)
From Verif Require Export Vec SeSpec SiteIndexSpec StructSpec NeighSpec InferSpec.
Open Scope nat_scope.

(** Where the numbers of a pair of elements start and where those of an atom and a neighbour are:
    [counts] are the numbers of atoms of the centre elements, [widths] those of the columns of the
    neighbour elements; centre element [ci], neighbour element [ni], atom [i] of the centre
    element, column [k], component [a]. *)
Definition place (counts widths : list nat) (ci ni i k a : nat) : nat :=
  4 * (list_sum (firstn ci counts) * list_sum widths + nth ci counts 0 * list_sum (firstn ni widths) + i * nth ni widths 0 + k) + a.
Definition sites_of {P} (z : Z) (sites : list (Z * P)) : list (Z * P) := filter (fun s => (fst s =? z)%Z) sites.

(** The entries of a column, given the atom in it. *)
Definition slot_raw (atoms : list (Z * vec)) (cen : Z * vec) (E : vec -> list R) (o : option nat) (row : list R) : Prop :=
  match o with
  | Some j => exists a, nth_error atoms j = Some a /\ row = E (vsub (snd a) (snd cen))
  | None => row = [0; 0; 0; 0]%R
  end.
(** The row of atom [c]: its neighbours of element [fst zw], nearest first, in [snd zw] columns. *)
Definition raw_row (atoms : list (Z * vec)) (rcut : R) (dist : vec -> vec -> R) (leb : R -> R -> bool) (E : vec -> list R) (zw : Z * nat) (c : nat) (row : list (list R)) : Prop :=
  exists cen sel, nth_error atoms c = Some cen /\ pair_neighbours dist leb atoms rcut (fst zw) c sel /\ length sel <= snd zw /\
  Forall2 (slot_raw atoms cen E) (map Some sel ++ repeat None (snd zw - length sel)) row.
(** Some atom of the list has more than [w] neighbours of element [z]. *)
Definition crowded (atoms : list (Z * vec)) (rcut : R) (dist : vec -> vec -> R) (leb : R -> R -> bool) (zw : Z * nat) (centres : list nat) : Prop :=
  exists c n, In c centres /\ number (of_element (fst zw) (near dist leb atoms rcut) c) atoms n /\ snd zw < n.
(** [order] lists every number of a list once. *)
Definition lists_set (order : list Z -> list Z) : Prop := forall l, NoDup (order l) /\ forall z, In z (order l) <-> In z l.
