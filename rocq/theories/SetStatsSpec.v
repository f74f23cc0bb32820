(** Statistics of a set of structures: vocabulary independent of the code. *)
From Verif Require Import Arr Vec SetStatsModel SiteIndexModel NeighModel StatsModel SeSpec SiteIndexSpec StructSpec NeighSpec InferSpec StatsSpec.
Local Open Scope nat_scope.

(** A cell with volume, with atoms, no two of them images of each other. *)
Definition regular (t : structure) : Prop :=
  det (la t) (lb t) (lc t) <> 0%R /\ separated (lattice_image (la t) (lb t) (lc t)) (map snd (atoms_of t)) /\ atoms_of t <> [].
Definition number_of (t : structure) (z : Z) : nat := length (filter (fun s => (fst s =? z)%Z) (atoms_of t)).

(** Columns: elements with positive widths. *)
Definition ok_columns (zws : list (Z * nat)) : Prop := zws <> [] /\ forall zw, In zw zws -> fst zw <> 0%Z /\ 0 < snd zw.

(** What a column of the row of atom [cen] holds: the environment of the neighbour in it, or zeros. *)
Definition slot_raw (atoms : list (Z * vec)) (cen : Z * vec) (E : vec -> list R) (o : option nat) (row : list R) : Prop :=
  match o with Some j => exists a, nth_error atoms j = Some a /\ row = E (vsub (snd a) (snd cen)) | None => row = [0; 0; 0; 0]%R end.
(** The rows of all atoms of element [c] of a structure: one list of columns for each. *)
Definition rows_of_structure (rcut : R) (s0 s1 s2 : Z) (columns : list (Z * nat)) (c : Z) (E : vec -> list R) (t : structure) (block : list (list (list R))) : Prop :=
  exists atoms centres, copies (la t) (lb t) (lc t) s0 s1 s2 (atoms_of t) atoms /\
  map (nth_error atoms) centres = map Some (filter (fun s => (fst s =? c)%Z) (atoms_of t)) /\
  Forall2 (fun i rows => exists cen sel, nth_error atoms i = Some cen /\
    (forall zw, In zw columns -> pair_neighbours vdist Rleb atoms rcut (fst zw) i (sel (fst zw)) /\ length (sel (fst zw)) <= snd zw) /\
    Forall2 (slot_raw atoms cen E) (slots sel columns) rows) centres block.
(** Every atom of element [c] has room for its neighbours; some atom has not. *)
Definition room (rcut : R) (s0 s1 s2 : Z) (columns : list (Z * nat)) (c : Z) (t : structure) : Prop :=
  forall atoms i s, copies (la t) (lb t) (lc t) s0 s1 s2 (atoms_of t) atoms -> In s (atoms_of t) -> fst s = c -> nth_error atoms i = Some s -> fits vdist Rleb atoms rcut columns i.
Definition no_room (rcut : R) (s0 s1 s2 : Z) (columns : list (Z * nat)) (c : Z) (t : structure) : Prop :=
  forall atoms, copies (la t) (lb t) (lc t) s0 s1 s2 (atoms_of t) atoms -> exists i s zw n, In s (atoms_of t) /\ fst s = c /\ nth_error atoms i = Some s /\
  In zw columns /\ number (of_element (fst zw) (near vdist Rleb atoms rcut) i) atoms n /\ snd zw < n.
(** The rows as numbers of the four columns of the sample. *)
Definition four (l : list R) : row4 := (nth 0 l 0, nth 1 l 0, nth 2 l 0, nth 3 l 0)%R.
Definition as_rows (b : list (list (list R))) : list row4 := map four (concat b).
(** The structure an index stands for, counted from the end if it is negative. *)
Definition picked {X} (l : list X) (i : Z) (x : X) : Prop :=
  ((0 <= i)%Z /\ nth_error l (Z.to_nat i) = Some x) \/ (exists k, (i = - Z.of_nat k)%Z /\ 0 < k <= length l /\ nth_error l (length l - k) = Some x).
Definition outside {X} (l : list X) (i : Z) : Prop := (i < - Z.of_nat (length l))%Z \/ (Z.of_nat (length l) <= i)%Z.
(** One row of four entries for each centre element. *)
Definition of_shape {X} (centers : list Z) (d : list (list X)) : Prop := length d = length centers /\ forall r, In r d -> length r = 4.
(** What a set of statistics needs to be usable as averages and divisors. *)
Definition usable (n : normalizer) : Prop :=
  length (n_davgs n) = length (n_centers n) /\ length (n_dstds n) = length (n_centers n) /\ n_centers n <> [] /\
  Forall (fun r => exists a, r = [a; 0; 0; 0]%R) (n_davgs n) /\
  Forall (fun r => length r = 4 /\ Forall (fun o => exists d, o = Some d /\ (1 / 100 <= d)%R) r) (n_dstds n).
(** Averages and deviations of a sample, each in four columns. *)
Definition sample_averages (rows : list row4) : list R := [StatsSpec.mean (map rad rows) * (INR (length rows) / (INR (length rows) + 1 / 10 ^ 15)); 0; 0; 0]%R.
Definition sample_deviations (rows : list row4) : list R :=
  let a := Rmax (1 / 100) (StatsSpec.deviation (flat_map ang rows)) in [Rmax (1 / 100) (StatsSpec.deviation (map rad rows)); a; a; a]%R.
