(** Preparation of the input of a force field,
    matersdk/infer/pwmatmlff/deepmd/preprocess.py ([InferPreprocessor]) and
    matersdk/infer/pwmatmlff/deepmd/inference.py ([DpInfer._preprocess]), on top of the models of
    neigh.py, premise.py ([NeighModel]), se_pair.py ([SeModel]) and feature/deepmd/preprocess.py
    ([StatsModel]).  Numbers are real; the leading axis of length 1 and the conversion to tensors
    are left out; the trained network itself is not modelled. *)
From Verif Require Import Arr Vec StructModel SiteIndexModel SeModel NeighModel StatsModel.
Open Scope nat_scope.

(** se_pair.py:256-260 and 488-495: [out[:, :real] = rows] on zeros of width [m]; numpy stretches
    a single column over a slice of width 0. *)
Definition widen {F} (zero : F) (real m : nat) (rows : list (list F)) : result (list (list F)) :=
  if real <=? m then Ok (map (fun r => r ++ repeat zero (m - real)) rows)
  else if (real =? 1) && (m =? 0) then Ok (map (fun _ => []) rows) else Err ValueError.
(** Entry by entry over distances and relative coordinates, se_pair.py:141-241 and 265-475. *)
Definition pair_rows {F} (f : R -> vec -> F) (ds : list (list R)) (rcs : list (list vec)) : list (list F) :=
  map (fun dr => map (fun x => f (fst x) (snd x)) (combine (fst dr) (snd dr))) (combine ds rcs).
(** preprocess.py:537-572 and 575-600 for one neighbour, as lists. *)
Definition norm_row (avg std row : list R) : list R :=
  map (fun t => ((snd t - fst (fst t)) / snd (fst t))%R) (combine (combine avg std) row).
Definition norm_deriv (std : list R) (rows : list (list R)) : list (list R) :=
  map (fun t => map (fun x => (x / fst t)%R) (snd t)) (combine std rows).
Definition zero4 : list R := [0; 0; 0; 0]%R.
Definition zero43 : list (list R) := [[0; 0; 0]; [0; 0; 0]; [0; 0; 0]; [0; 0; 0]]%R.

(** feature/deepmd/preprocess.py:361-379, lookups and concatenations. *)
Definition join {F} (centers : list Z) (d : list ((Z * Z) * list (list F))) : result (list (list F)) :=
  bind (mapM (fun c => bind (mapM (fun n => dict_get d c n) centers) hcat) centers) vcat.

Section Infer.
Variable argsort : list R -> list nat.
Variable rnd : R -> Z.
Variables A B C : vec.
Variables (rcut rcut_smooth : R) (s0 s1 s2 : Z).
Variables (davgs dstds : list (list R)) (centers nbrs : list Z) (max_num_nbrs : list nat).

(** feature/deepmd/preprocess.py:296-333: the entries of the dictionaries in the order in which
    they are stored. *)
Definition pair_entry (table : list (list Z * list R * list vec)) (ic jn : nat * Z)
  : result ((Z * Z) * (list (list (list R)) * list (list (list (list R))))) :=
  bind (extract_feature_pair vzero 0%R vsub table (snd ic) (snd jn)) (fun f => let '(real, (_, ds, rcs)) := f in
  bind (get max_num_nbrs (fst jn)) (fun m =>
  bind (widen zero4 real m (pair_rows (py_tilde_row rcut rcut_smooth) ds rcs)) (fun t =>
  bind (widen zero43 real m (pair_rows (py_deriv rcut rcut_smooth) ds rcs)) (fun d =>
  bind (get davgs (fst ic)) (fun avg =>
  bind (get dstds (fst ic)) (fun std =>
  Ok ((snd ic, snd jn), (map (map (norm_row avg std)) t, map (map (norm_deriv std)) d)))))))).

(** feature/deepmd/preprocess.py:260-379.  The neighbour table is computed anew, always with
    [reformat_mark=True].  A later entry replaces an earlier one of the same key. *)
Definition normalize (sites : list (Z * vec)) : result (list (list (list R)) * list (list (list (list R)))) :=
  bind (structure_neighbors_v1 argsort A B C sites rcut s0 s1 s2 true) (fun table =>
  bind (mapM (fun ic => mapM (pair_entry table ic) (enumerate nbrs)) (enumerate centers)) (fun entries =>
  let d := rev (concat entries) in
  bind (join centers (map (fun e => (fst e, fst (snd e))) d)) (fun ri =>
  bind (join centers (map (fun e => (fst e, snd (snd e))) d)) (fun rid => Ok (ri, rid))))).

(** infer/.../preprocess.py:75-90 *)
Definition infer_rc (table : list (list Z * list R * list vec)) : result (list (list vec)) :=
  bind (mapM (fun c => bind (mapM (fun jn : nat * Z =>
    bind (get max_num_nbrs (fst jn)) (fun m => expand_rc vzero 0%R vsub table c (snd jn) m)) (enumerate nbrs)) hcat) centers) vcat.

(** feature/deepmd/preprocess.py:75-78, the assertions on the statistics. *)
Definition stats_shape (d : list (list R)) : bool := (length d =? length centers) && forallb (fun r => length r =? 4) d.

Record inputs : Type := mk_inputs {
  rc : list (list vec);
  tildeR : list (list (list R));
  tildeR_deriv : list (list (list (list R)));
  list_neigh : list (list nat);
  natoms : list nat }.

(** inference.py:83-115 with infer/.../preprocess.py:12-116. *)
Definition preprocess (reformat_mark : bool) (sites : list (Z * vec)) : result inputs :=
  bind (structure_neighbors_v1 argsort A B C sites rcut s0 s1 s2 reformat_mark) (fun table =>
  if negb (stats_shape davgs && stats_shape dstds) then Err AssertionError else
  bind (infer_rc table) (fun rcs =>
  bind (normalize sites) (fun ri =>
  bind (get_nbrs_indices vzero (get_site_index rnd A B C (map snd sites)) table centers nbrs (Some max_num_nbrs)) (fun ln =>
  Ok (mk_inputs rcs (fst ri) (snd ri) ln (get_natoms vec None sites)))))).
End Infer.
