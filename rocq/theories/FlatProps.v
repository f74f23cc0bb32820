(** Properties C98 and C99: the features of a whole structure. *)
From Verif Require Import Arr Vec StructModel SiteIndexModel SeModel NeighModel StatsModel InferModel FlatModel NeighSpec SeSpec SiteIndexSpec StructSpec InferSpec.
From Verif Require Import NeighReal InferCases FlatFinal FlatCases FlatSpec.
Local Open Scope nat_scope.

(** ** C98 *)

(** The row of numbers of a structure for centre elements [cs] and neighbour elements with widths
    [zws] (more widths than elements are ignored).  If no atom has more neighbours of an element
    than its width, the row has four numbers for every column of every atom, and the number for
    component [a] of column [k] of atom [i] of an element stands at the given place: the columns
    show the neighbours of that element, nearest first, then zeros.  If some atom has more
    neighbours, and all widths are positive, a ValueError is raised. *)
Theorem C98_row : forall (argsort : list R -> list nat) (A B C : vec), sorts Rleb argsort -> det A B C <> 0%R ->
  forall (rcut rs : R) (s0 s1 s2 : Z) (sites : list (Z * vec)), positive_odd s0 -> positive_odd s1 -> positive_odd s2 ->
  separated (lattice_image A B C) (map snd sites) -> (0 <= rcut)%R -> (rs < rcut)%R -> sites <> [] ->
  forall (cs : list Z) (zws : list (Z * nat)) (extra : list Z), cs <> [] -> zws <> [] -> (forall zw, In zw zws -> fst zw <> 0%Z) ->
  let run := flat_of argsort A B C rcut rs s0 s1 s2 sites cs (map fst zws) (map (fun zw => Z.of_nat (snd zw)) zws ++ extra) in
  let counts := map (fun z => length (sites_of z sites)) cs in
  exists E atoms cen, (forall d, (0 < length_of d)%R -> environment rcut rs d (E d)) /\ copies A B C s0 s1 s2 sites atoms /\
  (forall z, map (nth_error atoms) (cen z) = map Some (sites_of z sites)) /\
  ((forall z zw, In z cs -> In zw zws -> ~ crowded atoms rcut vdist Rleb zw (cen z)) ->
    exists flat, run = Ok flat /\ length flat = 4 * (list_sum counts * list_sum (map snd zws)) /\
    forall ci z ni zw i c, nth_error cs ci = Some z -> nth_error zws ni = Some zw -> nth_error (cen z) i = Some c ->
    exists row, raw_row atoms rcut vdist Rleb E zw c row /\
    forall k a cell, nth_error row k = Some cell -> a < 4 -> nth_error flat (place counts (map snd zws) ci ni i k a) = nth_error cell a) /\
  ((exists z zw, In z cs /\ In zw zws /\ crowded atoms rcut vdist Rleb zw (cen z)) -> (forall zw, In zw zws -> 0 < snd zw) -> run = Err ValueError).
Proof. exact flat_all. Qed.
Print Assumptions C98_row.

(** No place is used twice. *)
Theorem C98_places : forall counts widths ci ni i k a ci' ni' i' k' a',
  ci < length counts -> ni < length widths -> i < nth ci counts 0 -> k < nth ni widths 0 -> a < 4 ->
  ci' < length counts -> ni' < length widths -> i' < nth ci' counts 0 -> k' < nth ni' widths 0 -> a' < 4 ->
  place counts widths ci ni i k a = place counts widths ci' ni' i' k' a' -> ci = ci' /\ ni = ni' /\ i = i' /\ k = k' /\ a = a'.
Proof. exact place_injective. Qed.
Print Assumptions C98_places.

(** With two neighbour elements the numbers of an atom are not together: those of the next atom of
    its element come in between. *)
Theorem C98_atoms_together_fails : forall counts widths ci i, S i < nth ci counts 0 -> 0 < nth 0 widths 0 ->
  place counts widths ci 0 (S i) 0 0 < place counts widths ci 1 i 0 0.
Proof. exact interleaved. Qed.
Print Assumptions C98_atoms_together_fails.

(** Without centre elements, without neighbour elements, with fewer widths than neighbour elements
    or with a negative width nothing is returned. *)
Theorem C98_refused : forall argsort A B C rcut rs s0 s1 s2 sites centers nbrs sel,
  centers = [] \/ nbrs = [] \/ length sel < length nbrs \/ Exists (fun m => (m < 0)%Z) (firstn (length nbrs) sel) ->
  exists e, flat_of argsort A B C rcut rs s0 s1 s2 sites centers nbrs sel = Err e.
Proof. exact flat_refused. Qed.
Print Assumptions C98_refused.

(** With a width of zero a neighbour is dropped without notice: the oxygen has a hydrogen within
    the cutoff. *)
Theorem C98_zero_width_refuted : exists atoms cen, copies axis_a axis_b axis_c 1 1 1 two_sites atoms /\ (forall z, map (nth_error atoms) (cen z) = map Some (sites_of z two_sites)) /\
  crowded atoms 2 vdist Rleb (1%Z, 0) (cen 8%Z) /\
  flat_of (insertion_argsort Rleb) axis_a axis_b axis_c 2 1 1 1 1 two_sites [8]%Z [1]%Z [0]%Z = Ok [].
Proof. exact dropped. Qed.
Print Assumptions C98_zero_width_refuted.

Example C98_case : exists flat, flat_of (insertion_argsort Rleb) axis_a axis_b axis_c 2 1 1 1 1 two_sites [8; 1]%Z [1; 8]%Z [1; 1]%Z = Ok flat /\ length flat = 16.
Proof. exact two_length. Qed.
Example C98_case_uncrowded : exists atoms cen, copies axis_a axis_b axis_c 1 1 1 two_sites atoms /\ (forall z, map (nth_error atoms) (cen z) = map Some (sites_of z two_sites)) /\
  (forall z zw, In z [8; 1]%Z -> In zw [(1%Z, 1); (8%Z, 1)] -> ~ crowded atoms 2 vdist Rleb zw (cen z)).
Proof. exact two_flat. Qed.
Example C98_case_places : place [2; 3] [5; 7] 0 1 1 2 3 = 4 * (2 * 5 + 7 + 2) + 3 /\ place [2; 3] [5; 7] 1 0 0 0 0 = 4 * (2 * 12).
Proof. split; reflexivity. Qed.

(** ** C99 *)

(** The dictionary of [FFInfer.calc_tildeR] has one entry for every ordered pair of elements of the
    structure.  An entry has one row per atom of the first element, with the neighbours of the
    second element in as many columns as were asked for.  The numbers are not normalised.  The order in
    which Python lists the elements does not matter. *)
Theorem C99_dictionary : forall (argsort : list R -> list nat) (A B C : vec), sorts Rleb argsort -> det A B C <> 0%R ->
  forall (rcut rs : R) (s0 s1 s2 : Z) (sites : list (Z * vec)), positive_odd s0 -> positive_odd s1 -> positive_odd s2 ->
  separated (lattice_image A B C) (map snd sites) -> (0 <= rcut)%R -> (rs < rcut)%R -> sites <> [] ->
  forall (order : list Z -> list Z) (maxs : list (Z * Z)) (wd : Z -> nat), lists_set order -> (forall s, In s sites -> fst s <> 0%Z) ->
  (forall s, In s sites -> max_of maxs (fst s) = Ok (Z.of_nat (wd (fst s)))) ->
  let run := calc_tildeR argsort order A B C rcut rs s0 s1 s2 maxs sites in
  let elements := order (map fst sites) in
  exists E atoms cen, (forall d, (0 < length_of d)%R -> environment rcut rs d (E d)) /\ copies A B C s0 s1 s2 sites atoms /\
  (forall z, map (nth_error atoms) (cen z) = map Some (sites_of z sites)) /\
  ((forall z n, In z elements -> In n elements -> ~ crowded atoms rcut vdist Rleb (n, wd n) (cen z)) ->
    exists d, run = Ok d /\ map fst d = list_prod elements elements /\
    (forall z n rows, In ((z, n), rows) d -> Forall2 (raw_row atoms rcut vdist Rleb E (n, wd n)) (cen z) rows) /\
    forall order', lists_set order' -> exists d', calc_tildeR argsort order' A B C rcut rs s0 s1 s2 maxs sites = Ok d' /\ forall e, In e d' <-> In e d) /\
  ((exists z n, In z elements /\ In n elements /\ crowded atoms rcut vdist Rleb (n, wd n) (cen z)) -> (forall z, In z elements -> 0 < wd z) -> run = Err ValueError).
Proof. exact dict_all. Qed.
Print Assumptions C99_dictionary.

(** An element of the structure without a number of columns is an error. *)
Theorem C99_missing : forall (argsort : list R -> list nat) (A B C : vec), sorts Rleb argsort -> det A B C <> 0%R ->
  forall (rcut rs : R) (s0 s1 s2 : Z) (sites : list (Z * vec)), positive_odd s0 -> positive_odd s1 -> positive_odd s2 ->
  separated (lattice_image A B C) (map snd sites) -> (0 <= rcut)%R -> sites <> [] ->
  forall (order : list Z -> list Z) (maxs : list (Z * Z)) s, lists_set order -> (forall s, In s sites -> fst s <> 0%Z) -> In s sites -> ~ In (fst s) (map fst maxs) ->
  calc_tildeR argsort order A B C rcut rs s0 s1 s2 maxs sites = Err KeyError \/ calc_tildeR argsort order A B C rcut rs s0 s1 s2 maxs sites = Err ValueError.
Proof. exact dict_missing. Qed.
Print Assumptions C99_missing.

Example C99_case : lists_set (nodup Z.eq_dec) /\ max_of [(8, 1); (1, 1)]%Z 8 = Ok 1%Z.
Proof. exact (conj nodup_lists_set eq_refl). Qed.
