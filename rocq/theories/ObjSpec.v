(** What the descriptor objects are meant to contain. *)
From Verif Require Export TildeSpec ObjModel.
Open Scope nat_scope.

(** The neighbour list of an object, as the four tables that the functions
    without an object are given. *)
Definition nl_inum (o : nlobj) : nat := length (no_lists o).
Definition nl_ilist (o : nlobj) : list nat := map (fun i => i + no_cell o * no_prim o) (seq 0 (nl_inum o)).
Definition nl_numneigh (o : nlobj) : list nat := map (@length nat) (no_lists o).

(** The neighbour list fits its supercell: one list per atom of the primitive
    cell, all atoms named exist, and the atoms of the primitive copy are those of
    the first copy, in the same order. *)
Definition nl_ok (o : nlobj) : Prop :=
  no_prim o = length (no_lists o) /\
  (no_cell o + 1) * no_prim o <= length (no_types o) /\
  length (no_x o) = length (no_types o) /\
  (forall r b, In r (no_lists o) -> In b r -> b < length (no_types o)) /\
  (forall i, i < no_prim o -> nth (i + no_cell o * no_prim o) (no_types o) 0 = nth i (no_types o) 0).

(** The centres of a species, the neighbours of a species, a row, the table. *)
Definition nl_centres (o : nlobj) (ca : nat) : list nat := filter (fun i => nth i (no_types o) 0 =? ca) (seq 0 (no_prim o)).
Definition nl_neighbours (o : nlobj) (i na : nat) : list nat := filter (fun b => nth b (no_types o) 0 =? na) (nth i (no_lists o) []).
Section Rows.
Context {V : Type}.
Variables (row : vec -> V) (zero : V) (o : nlobj).
Definition nl_at (a : nat) : vec := nth a (no_x o) (0, 0, 0)%R.
Definition nl_row (i na nn : nat) : list V :=
  map (fun b => row (vsub (nl_at b) (nl_at (i + no_cell o * no_prim o)))) (nl_neighbours o i na)
  ++ repeat zero (nn - length (nl_neighbours o i na)).
Definition nl_table (centres neighs nnl : list nat) : list (list V) :=
  flat_map (fun ca => map (fun i => flat_map (fun nb => nl_row i (fst nb) (snd nb)) (combine neighs nnl)) (nl_centres o ca)) centres.
End Rows.

(** There is room for the neighbours of every centre of a species. *)
Definition room (o : nlobj) (ca na nn : nat) : Prop := forall i, In i (nl_centres o ca) -> length (nl_neighbours o i na) <= nn.
