(** Model of matersdk/feature/deepmd/se.py (the feature of a whole structure as one row of
    numbers) and of matersdk/infer/pwmatmlff/deepmd/inference_depre.py (the features of all pairs
    of elements), on top of the models of neigh.py and premise.py ([NeighModel]) and se_pair.py
    ([SeModel]).  Numbers are real.  The two registries are those of C35.  Not modelled: the
    parameters of the network loaded by [FFInfer] (its statistics are stored and never read). *)
From Verif Require Import Arr Vec StructModel SiteIndexModel SeModel NeighModel StatsModel InferModel.
Open Scope nat_scope.

(** [np.zeros] with a negative width is a ValueError; otherwise the rows are written into the
    zeros (se.py:82-85, se_pair.py:254-260). *)
Definition padded {F} (zero : F) (real : nat) (m : Z) (rows : list (list F)) : result (list (list F)) :=
  if (m <? 0)%Z then Err ValueError else widen zero real (Z.to_nat m) rows.

Section Flat.
Variables (rcut rcut_smooth : R) (table : list (list Z * list R * list vec)).

(** se_pair.py:72-97, the constructor: the width of the table and its rows. *)
Definition pair_tilde (center nbr : Z) : result (nat * list (list (list R))) :=
  bind (extract_feature_pair vzero 0%R vsub table center nbr) (fun f => let '(real, (_, ds, rcs)) := f in
  Ok (real, pair_rows (py_tilde_row rcut rcut_smooth) ds rcs)).

(** se.py:72-95, one pass of the inner loop; [flatten] reads row by row. *)
Definition flat_block (sel : list Z) (center : Z) (jn : nat * Z) : result (list R) :=
  bind (get sel (fst jn)) (fun m =>
  bind (pair_tilde center (snd jn)) (fun f =>
  bind (padded zero4 (fst f) m (snd f)) (fun rows => Ok (concat (concat rows))))).
(** se.py:64-98; [np.concatenate] needs at least one array. *)
Definition flat_feature (centers nbrs sel : list Z) : result (list R) :=
  bind (mapM (fun c => mapM (flat_block sel c) (enumerate nbrs)) centers) (fun parts =>
  match concat parts with [] => Err ValueError | l => Ok (concat l) end).

(** inference_depre.py:106-121; [elements] is the set of atomic numbers in some order, keys are
    kept as pairs (their text "c_n" determines both numbers). *)
Fixpoint max_of (d : list (Z * Z)) (z : Z) : result Z :=
  match d with [] => Err KeyError | (k, v) :: r => if (k =? z)%Z then Ok v else max_of r z end.
Definition pair_value (maxs : list (Z * Z)) (center nbr : Z) : result ((Z * Z) * list (list (list R))) :=
  bind (pair_tilde center nbr) (fun f =>
  bind (max_of maxs nbr) (fun m =>
  bind (padded zero4 (fst f) m (snd f)) (fun rows => Ok ((center, nbr), rows)))).
Definition pair_values (maxs : list (Z * Z)) (elements : list Z) : result (list ((Z * Z) * list (list (list R)))) :=
  bind (mapM (fun c => mapM (pair_value maxs c) elements) elements) (fun l => Ok (concat l)).
End Flat.

(** A structure, its neighbours (neigh.py:314-347) and its feature. *)
Definition flat_of (argsort : list R -> list nat) (A B C : vec) (rcut rcut_smooth : R) (s0 s1 s2 : Z) (sites : list (Z * vec)) (centers nbrs sel : list Z) : result (list R) :=
  bind (structure_neighbors_v1 argsort A B C sites rcut s0 s1 s2 true) (fun table => flat_feature rcut rcut_smooth table centers nbrs sel).
(** inference_depre.py:69-125, [FFInfer.calc_tildeR]; [order] is the order in which Python lists
    a set. *)
Definition calc_tildeR (argsort : list R -> list nat) (order : list Z -> list Z) (A B C : vec) (rcut rcut_smooth : R) (s0 s1 s2 : Z) (maxs : list (Z * Z)) (sites : list (Z * vec))
  : result (list ((Z * Z) * list (list (list R)))) :=
  let elements := order (map fst sites) in
  bind (structure_neighbors_v1 argsort A B C sites rcut s0 s1 s2 true) (fun table => pair_values rcut rcut_smooth table maxs elements).
