(** Statistics of a set of structures: C93.
    The definitions are in [SetStatsModel] (code) and [SetStatsSpec] (vocabulary). *)
From Coq Require Import Permutation.
From Verif Require Import Arr Vec StructModel SiteIndexModel SeModel NeighModel StatsModel InferModel SetStatsModel SeSpec SiteIndexSpec StructSpec.
From Verif Require Import NeighReal InferCases SetStatsProofs SetStatsRows SetStatsFinal SetStatsCases NeighSpec InferSpec StatsSpec SetStatsSpec.
Local Open Scope nat_scope.

(** ** C93 *)

(** The statistics of a set are those of one sample per centre element: the rows of all atoms of
    that element in all chosen structures, one row for the environment of every neighbour within the
    cutoff and a row of zeros for every free column.  Needed: at least one structure, room for all
    neighbours, and the same number of atoms of the element in every structure. *)
Theorem C93_values :
  forall argsort rcut rs s0 s1 s2, sorts Rleb argsort -> positive_odd s0 -> positive_odd s1 -> positive_odd s2 -> (0 <= rcut)%R -> (rs < rcut)%R ->
  forall columns set indices chosen centers, ok_columns columns -> Forall2 (picked set) indices chosen -> chosen <> [] -> Forall regular chosen -> centers <> [] ->
  (forall c, In c centers -> Forall (room rcut s0 s1 s2 columns c) chosen /\ exists k, forall t, In t chosen -> number_of t c = k) ->
  exists E n samples, (forall d, (0 < length_of d)%R -> environment rcut rs d (E d)) /\
  Forall2 (fun c rows => exists blocks, Forall2 (rows_of_structure rcut s0 s1 s2 columns c E) chosen blocks /\ Permutation rows (flat_map as_rows blocks)) centers samples /\
  from_set argsort set indices rcut rs centers (map fst columns) (map snd columns) s0 s1 s2 = Ok n /\
  n_davgs n = map sample_averages samples /\ n_dstds n = map (fun rows => map Some (sample_deviations rows)) samples.
Proof. exact set_stats_ok. Qed.
Print Assumptions C93_values.
(** Oxygen and hydrogen at distance 1, one column: the average is 1 / (1 + 1e-15). *)
Example C93_values_case : exists n, from_set (insertion_argsort Rleb) [two] [0%Z] 2 1 [8%Z] [1%Z] [1] 1 1 1 = Ok n /\ n_davgs n = [[1 / (1 + 1 / 10 ^ 15); 0; 0; 0]]%R.
Proof. exact (two_made [(1%Z, 1)] (or_introl eq_refl)). Qed.
Print Assumptions C93_values_case.

(** Whatever comes out keeps the arguments, has one row of four numbers per centre element, the averages of the three
    directional columns are 0, and every deviation is a number not below 0.01. *)
Theorem C93_usable :
  forall argsort rcut rs s0 s1 s2 nbrs maxs set indices centers n, from_set argsort set indices rcut rs centers nbrs maxs s0 s1 s2 = Ok n ->
  (n_rcut n = rcut /\ n_smooth n = rs /\ n_centers n = centers /\ n_nbrs n = nbrs /\ n_max n = maxs /\ n_scaling n = [s0; s1; s2]) /\ usable n.
Proof. exact from_set_usable. Qed.
Print Assumptions C93_usable.

(** The constructor takes tables with one row of four numbers per centre element and no others. *)
Theorem C93_shapes : forall n, (of_shape (n_centers n) (n_davgs n) /\ of_shape (n_centers n) (n_dstds n) -> new_normalizer n = Ok n) /\
  (~ (of_shape (n_centers n) (n_davgs n) /\ of_shape (n_centers n) (n_dstds n)) -> new_normalizer n = Err AssertionError).
Proof. exact constructed. Qed.
Print Assumptions C93_shapes.
(** A row of five; a row too few. *)
Example C93_shapes_case : new_normalizer (mk_normalizer 5 4 [3%Z] [3%Z] [100] [3%Z; 3%Z; 3%Z] [[1; 0; 0; 0; 0]]%R [[Some 1; Some 1; Some 1; Some 1]]%R) = Err AssertionError /\
  new_normalizer (mk_normalizer 5 4 [3%Z; 14%Z] [3%Z] [100] [3%Z; 3%Z; 3%Z] [[1; 0; 0; 0]; [1; 0; 0; 0]]%R [[Some 1; Some 1; Some 1; Some 1]]%R) = Err AssertionError.
Proof. split; reflexivity. Qed.

(** The order of the indices does not matter. *)
Theorem C93_order :
  forall argsort rcut rs s0 s1 s2 nbrs maxs set indices indices' centers n, Permutation indices indices' ->
  from_set argsort set indices rcut rs centers nbrs maxs s0 s1 s2 = Ok n -> from_set argsort set indices' rcut rs centers nbrs maxs s0 s1 s2 = Ok n.
Proof. exact from_set_perm. Qed.
Print Assumptions C93_order.

(** An atom without room for its neighbours, structures with different numbers of atoms of a centre
    element, or no structure at all: ValueError. *)
Theorem C93_rejected :
  forall argsort rcut rs s0 s1 s2, sorts Rleb argsort -> positive_odd s0 -> positive_odd s1 -> positive_odd s2 -> (0 <= rcut)%R ->
  forall columns set indices chosen centers c, ok_columns columns -> Forall2 (picked set) indices chosen -> Forall regular chosen -> In c centers ->
  Exists (no_room rcut s0 s1 s2 columns c) chosen \/ (exists t t', In t chosen /\ In t' chosen /\ number_of t c <> number_of t' c) \/ chosen = [] ->
  from_set argsort set indices rcut rs centers (map fst columns) (map snd columns) s0 s1 s2 = Err ValueError.
Proof. exact rejected. Qed.
Print Assumptions C93_rejected.
(** Two structures with one and with no oxygen atom; an oxygen atom with two neighbours and one column. *)
Example C93_rejected_case :
  (Forall2 (picked [two; alone]) [0%Z; (-1)%Z] [two; alone] /\ Forall regular [two; alone] /\ number_of two 8 <> number_of alone 8) /\ regular water /\ no_room 2 1 1 1 [(1%Z, 1)] 8 water.
Proof. exact (conj unequal_case narrow_case). Qed.

(** An index outside the set: IndexError; no centre element: ValueError. *)
Theorem C93_bad_index :
  forall argsort set indices rcut rs c centers nbrs maxs s0 s1 s2, Exists (outside set) indices -> from_set argsort set indices rcut rs (c :: centers) nbrs maxs s0 s1 s2 = Err IndexError.
Proof. exact bad_index. Qed.
Print Assumptions C93_bad_index.
Theorem C93_no_centers :
  forall argsort set indices rcut rs nbrs maxs s0 s1 s2, from_set argsort set indices rcut rs [] nbrs maxs s0 s1 s2 = Err ValueError.
Proof. exact no_centres. Qed.
Print Assumptions C93_no_centers.

(** Free columns count as rows: with other widths of the same elements the average times the number
    of columns is what stays. *)
Theorem C93_free_columns :
  forall argsort rcut rs s0 s1 s2, sorts Rleb argsort -> positive_odd s0 -> positive_odd s1 -> positive_odd s2 -> (0 <= rcut)%R ->
  forall columns columns' set indices chosen centers n n' i c, Forall2 (picked set) indices chosen -> Forall regular chosen -> ok_columns columns -> ok_columns columns' -> map fst columns = map fst columns' ->
  from_set argsort set indices rcut rs centers (map fst columns) (map snd columns) s0 s1 s2 = Ok n ->
  from_set argsort set indices rcut rs centers (map fst columns') (map snd columns') s0 s1 s2 = Ok n' -> nth_error centers i = Some c ->
  let N := list_sum (map (fun t => number_of t c) chosen) in exists a a', nth_error (n_davgs n) i = Some [a; 0; 0; 0]%R /\ nth_error (n_davgs n') i = Some [a'; 0; 0; 0]%R /\
  (a * (INR (N * list_sum (map snd columns)) + 1 / 10 ^ 15) = a' * (INR (N * list_sum (map snd columns')) + 1 / 10 ^ 15))%R.
Proof. exact free_columns. Qed.
Print Assumptions C93_free_columns.
(** So the statistics are not a property of the structures alone. *)
Theorem C93_widths_refuted :
  exists n n', from_set (insertion_argsort Rleb) [two] [0%Z] 2 1 [8%Z] [1%Z] [1] 1 1 1 = Ok n /\ from_set (insertion_argsort Rleb) [two] [0%Z] 2 1 [8%Z] [1%Z] [2] 1 1 1 = Ok n' /\ n_davgs n <> n_davgs n'.
Proof. exact width_matters. Qed.
Print Assumptions C93_widths_refuted.

(** A file holds all there is: what is read back is what was written; a missing part is a KeyError. *)
Theorem C93_roundtrip : forall n m, new_normalizer n = Ok m -> from_file (to_file m) = Ok n.
Proof. exact round_trip. Qed.
Print Assumptions C93_roundtrip.
Theorem C93_missing : forall n k, In k (map fst (to_file n)) -> from_file (filter (fun e => negb (fst e =? k)%string) (to_file n)) = Err KeyError.
Proof. exact missing. Qed.
Print Assumptions C93_missing.
Example C93_roundtrip_case : let n := mk_normalizer 5 4 [3%Z; 14%Z] [3%Z] [100] [3%Z; 3%Z; 3%Z] [[1; 0; 0; 0]; [2; 0; 0; 0]]%R [[Some 1; Some 1; Some 1; Some 1]; [Some 2; None; Some 2; Some 2]]%R in new_normalizer n = Ok n.
Proof. reflexivity. Qed.
