(** Model of the parts of source/nblist/include/neighborList.h that work on the
    finished lists: sorting by distance, the counts and the flat arrays handed
    to the machine-learning descriptors. *)
From Verif Require Export NbModel.
Open Scope Z_scope.

(** neighborList.h:20-22: compare two positions of a list by their distances. *)
Definition by_distance (ds : list R) (i j : nat) : bool := Rltb (nth i ds 0%R) (nth j ds 0%R).

Section Sorting.
(** [std::sort(first, last, comp)]: any function may stand here; what it has to
    guarantee is stated with the theorems. *)
Variable std_sort : (nat -> nat -> bool) -> list nat -> list nat.

(** neighborList.h:286-316: one list.  [pos] are the coordinates of the supercell. *)
Definition sort_list (pos : list vec) (centre : vec) (l : list Z) : result (list Z) :=
  bind (mapM (fun m => bind (arr_get pos m) (fun q => Ok (sqrt (dist2 q centre)))) l) (fun ds =>
  mapM (get l) (std_sort (by_distance ds) (seq 0 (length l)))).

(** neighborList.h:259-324 with sort = true. *)
Definition neighbor_lists_sorted (rcut : R) (sizes : vec) (pbc : bool * bool * bool) (c : cell) : result (cell * list (list Z)) :=
  bind (neighbor_lists rcut sizes pbc c) (fun res =>
  let '(sup, lists) := res in
  let '(p0, p1, p2) := pbc in
  let d := interplanar c in
  let pidx := prim_cell_idx (scaling1 rcut p0 (vx d)) (scaling1 rcut p1 (vy d)) (scaling1 rcut p2 (vz d)) in
  bind (mapM (fun il =>
    bind (arr_get (coords sup) (Z.of_nat (fst il) + pidx * num_atoms c)) (fun centre =>
    sort_list (coords sup) centre (snd il))) (combine (seq 0 (length lists)) lists)) (fun sorted =>
  Ok (sup, sorted))).
End Sorting.

(** neighborList.h:488-496 *)
Fixpoint max_len_from (m : Z) (lists : list (list Z)) : Z :=
  match lists with
  | [] => m
  | l :: r => max_len_from (if m <? Z.of_nat (length l) then Z.of_nat (length l) else m) r
  end.
Definition max_num_neigh (lists : list (list Z)) : Z := max_len_from 0 lists.

(** neighborList.h:453-485: [ns] are the atomic numbers of the supercell;
    the central atoms are its first atoms. *)
Fixpoint max_typed_from (ns : list Z) (zc zn : Z) (ii : Z) (m : Z) (lists : list (list Z)) : result Z :=
  match lists with
  | [] => Ok m
  | l :: r =>
      bind (arr_get ns ii) (fun z =>
      if z =? zc then
        bind (mapM (arr_get ns) l) (fun zs =>
        let k := Z.of_nat (length (filter (Z.eqb zn) zs)) in
        max_typed_from ns zc zn (ii + 1) (if m <? k then k else m) r)
      else max_typed_from ns zc zn (ii + 1) m r)
  end.
Definition max_num_neigh_typed (ns : list Z) (zc zn : Z) (lists : list (list Z)) : result Z :=
  max_typed_from ns zc zn 0 0 lists.

(** neighborList.h:546-548 and 556-558: write the entries of a row one after
    the other, starting at [at]. *)
Fixpoint write_row {A} (at_ : Z) (row : list A) (arr : list A) : result (list A) :=
  match row with
  | [] => Ok arr
  | x :: r => bind (arr_set arr at_ x) (fun arr' => write_row (at_ + 1) r arr')
  end.
Fixpoint write_rows {A} (ii width : Z) (rows : list (list A)) (arr : list A) : result (list A) :=
  match rows with
  | [] => Ok arr
  | row :: r => bind (write_row (ii * width) row arr) (fun arr' => write_rows (ii + 1) width r arr')
  end.

(** The output arguments of neighborList.h:517-564. *)
Record mlff_info : Type := {
  i_ilist : list Z; i_numneigh : list Z; i_types : list Z;
  i_firstneigh : list Z; i_relative : list R; i_nghost : Z
}.

Definition triple (v : vec) : list R := [vx v; vy v; vz v].

(** neighborList.h:517-564; the caller allocates exactly [inum*umax] (times 3)
    entries (nblist_bind.cc:60-75). *)
Definition find_info4mlff (sup : cell) (pidx : Z) (lists : list (list Z)) (umax : Z) : result mlff_info :=
  let n := Z.of_nat (length lists) in
  bind (mapM (fun ii => arr_get (numbers sup) (Z.of_nat ii)) (seq 0 (length lists))) (fun types =>
  bind (write_rows 0 umax (map (map (fun m => Z.rem m n)) lists) (repeat (-1) (Z.to_nat (n * umax)))) (fun first =>
  bind (mapM (fun il =>
    bind (arr_get (coords sup) (Z.of_nat (fst il) + pidx * n)) (fun centre =>
    bind (mapM (fun m => bind (arr_get (coords sup) m) (fun q => Ok (triple (vsub q centre)))) (snd il)) (fun rel =>
    Ok (concat rel)))) (combine (seq 0 (length lists)) lists)) (fun rows =>
  bind (write_rows 0 (umax * 3) rows (repeat 0%R (Z.to_nat (n * umax * 3)))) (fun rel =>
  Ok {| i_ilist := map Z.of_nat (seq 0 (length lists)); i_numneigh := map (fun l => Z.of_nat (length l)) lists;
        i_types := types; i_firstneigh := first; i_relative := rel; i_nghost := 0 |})))).
