(** Statistics of a set of structures: matersdk/feature/deepmd/preprocess.py, [TildeRNormalizer]
    ([calc_stats], [from_dp_labeled_system], [to], [from_file]) and [NormalizerPremise], on top of the
    models of the neighbour table, the environment matrix and the statistics of one sample.
    Numbers are real; a file is a list of named data; the class of the set is not in the repository,
    only its list of structures is used. *)
From Verif Require Export Arr Vec StructModel SiteIndexModel SeModel NeighModel StatsModel InferModel.
From Coq Require Export String List.
From Verif Require Export Base.
Local Open Scope nat_scope.

Record structure : Type := mk_structure { la : vec; lb : vec; lc : vec; atoms_of : list (Z * vec) }.
(** [l[i]] of a Python list, also for negative [i]. *)
Definition pick {X} (l : list X) (i : Z) : result X :=
  let j := if (i <? 0)%Z then (i + Z.of_nat (length l))%Z else i in if (j <? 0)%Z then Err IndexError else get l (Z.to_nat j).
(** A row of four numbers of an array of shape (n, 4). *)
Definition row_of (l : list R) : row4 := (nth 0 l 0, nth 1 l 0, nth 2 l 0, nth 3 l 0)%R.

Section SetStats.
Variable argsort : list R -> list nat.
Variables (rcut rcut_smooth : R) (s0 s1 s2 : Z) (nbrs : list Z) (max_num_nbrs : list nat).

(** preprocess.py:669-693: one structure, one centre element. *)
Definition structure_rows (c : Z) (t : structure) : result (list (list (list R))) :=
  bind (structure_neighbors_v1 argsort (la t) (lb t) (lc t) (atoms_of t) rcut s0 s1 s2 true) (fun table =>
  bind (mapM (fun jn : nat * Z =>
    bind (extract_feature_pair vzero 0%R vsub table c (snd jn)) (fun f => let '(real, (_, ds, rcs)) := f in
    bind (get max_num_nbrs (fst jn)) (fun m => widen zero4 real m (pair_rows (py_tilde_row rcut rcut_smooth) ds rcs)))) (enumerate nbrs)) hcat).
(** preprocess.py:614-700 and 452, the array as a list of rows. *)
Definition sample (structures : list structure) (indices : list Z) (c : Z) : result (list row4) :=
  bind (mapM (pick structures) indices) (fun ts => bind (mapM (structure_rows c) ts) (fun blocks =>
  bind (hcat blocks) (fun b => Ok (map row_of (concat b))))).
(** preprocess.py:104-169.  Deviations are [None] where the code has nan. *)
Definition set_stats (structures : list structure) (indices centers : list Z) : result (list (list R) * list (list (option R))) :=
  bind (mapM (fun c => bind (sample structures indices c) (fun rows => Ok (calc_stats rows))) centers) (fun l =>
  match l with
  | [] => Err ValueError
  | _ => Ok (map (fun s => let '((a0, a1, a2, a3), _) := s in [a0; a1; a2; a3]) l, map (fun s => let '(_, (d0, d1, d2, d3)) := s in [d0; d1; d2; d3]) l)
  end).
End SetStats.

Record normalizer : Type := mk_normalizer {
  n_rcut : R; n_smooth : R; n_centers : list Z; n_nbrs : list Z; n_max : list nat; n_scaling : list Z;
  n_davgs : list (list R); n_dstds : list (list (option R)) }.
Definition shape4 {X} (centers : list Z) (d : list (list X)) : bool := (length d =? length centers) && forallb (fun r => length r =? 4) d.
(** preprocess.py:26-78 *)
Definition new_normalizer (n : normalizer) : result normalizer :=
  if shape4 (n_centers n) (n_davgs n) && shape4 (n_centers n) (n_dstds n) then Ok n else Err AssertionError.
(** preprocess.py:216-255 *)
Definition from_set argsort (structures : list structure) (indices : list Z) (rcut rcut_smooth : R) (centers nbrs : list Z) (maxs : list nat) (s0 s1 s2 : Z) : result normalizer :=
  bind (set_stats argsort rcut rcut_smooth s0 s1 s2 nbrs maxs structures indices centers) (fun d =>
  new_normalizer (mk_normalizer rcut rcut_smooth centers nbrs maxs [s0; s1; s2] (fst d) (snd d))).

(** preprocess.py:172-213 *)
Inductive data : Type := Number (x : R) | Integers (l : list Z) | Naturals (l : list nat) | Table (t : list (list R)) | OTable (t : list (list (option R))).
Definition to_file (n : normalizer) : list (string * data) :=
  [("rcut", Number (n_rcut n)); ("rcut_smooth", Number (n_smooth n)); ("center_atomic_numbers", Integers (n_centers n)); ("nbr_atomic_numbers", Integers (n_nbrs n));
   ("max_num_nbrs", Naturals (n_max n)); ("scaling_matrix", Integers (n_scaling n)); ("davgs", Table (n_davgs n)); ("dstds", OTable (n_dstds n))]%string.
Fixpoint named (f : list (string * data)) (k : string) : result data :=
  match f with [] => Err KeyError | (k', d) :: r => if (k' =? k)%string then Ok d else named r k end.
Definition number d := match d with Number x => Ok x | _ => Err TypeError end.
Definition integers d := match d with Integers x => Ok x | _ => Err TypeError end.
Definition naturals d := match d with Naturals x => Ok x | _ => Err TypeError end.
Definition table d := match d with Table x => Ok x | _ => Err TypeError end.
Definition otable d := match d with OTable x => Ok x | _ => Err TypeError end.
Definition from_file (f : list (string * data)) : result normalizer :=
  bind (bind (named f "rcut") number) (fun rcut => bind (bind (named f "rcut_smooth") number) (fun rs =>
  bind (bind (named f "center_atomic_numbers") integers) (fun cs => bind (bind (named f "nbr_atomic_numbers") integers) (fun ns =>
  bind (bind (named f "max_num_nbrs") naturals) (fun ms => bind (bind (named f "scaling_matrix") integers) (fun sc =>
  bind (bind (named f "davgs") table) (fun da => bind (bind (named f "dstds") otable) (fun ds =>
  new_normalizer (mk_normalizer rcut rs cs ns ms sc da ds))))))))).
