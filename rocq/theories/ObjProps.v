(** The descriptor objects that own a neighbour list. *)
From Verif Require Import ObjModel ObjSpec ObjProofs ObjCases.
Open Scope nat_scope.

(** ** C103 *)

(** For one species of centre and one of neighbour, with room for all the
    neighbours: the object gives one row per centre with the centre's neighbours
    in order and then zeros, exactly as the function that is given tables. *)
Theorem C103_block :
  forall (V : Type) (row : vec -> V) (zero : V) (o : nlobj), nl_ok o -> forall asserts ca na nn, room o ca na nn ->
  pair_reserved row zero o asserts ca na nn = Ok (map (fun i => nl_row row zero o i na nn) (nl_centres o ca)) /\
  pair_reserved row zero o asserts ca na nn =
  pair_generate row zero (nl_inum o) (nl_ilist o) (nl_numneigh o) (no_lists o) (no_x o) (no_types o) ca na nn.
Proof. exact @pair_reserved_ok. Qed.
Print Assumptions C103_block.

(** The same for several species: the table is complete, every place of it is
    written, and it is the one computed from tables. *)
Theorem C103_table :
  forall (V : Type) (row : vec -> V) (zero : V) (o : nlobj), nl_ok o ->
  forall asserts centres neighs nnl, length neighs = length nnl ->
  (forall ca na nn, In ca centres -> In (na, nn) (combine neighs nnl) -> room o ca na nn) ->
  objs_reserved row zero o asserts centres neighs nnl = Ok (map (map Some) (nl_table row zero o centres neighs nnl)) /\
  objs_reserved row zero o asserts centres neighs nnl =
  tilde_generate row zero (nl_inum o) (nl_ilist o) (nl_numneigh o) (no_lists o) (no_x o) (no_types o) centres neighs nnl.
Proof. exact @objs_reserved_ok. Qed.
Print Assumptions C103_table.

(** An object made without a reservation always has exactly the room it needs:
    the largest number of such neighbours of a centre of its species. *)
Theorem C103_automatic_block :
  forall (V : Type) (row : vec -> V) (zero : V) (o : nlobj), nl_ok o -> forall asserts ca na, exists nn,
  pair_automatic row zero o asserts ca na = Ok (map (fun i => nl_row row zero o i na nn) (nl_centres o ca)) /\
  room o ca na nn /\ (nn = 0 \/ exists i, In i (nl_centres o ca) /\ length (nl_neighbours o i na) = nn).
Proof. exact @pair_automatic_ok. Qed.
Print Assumptions C103_automatic_block.

(** The same for several species, where the room is the largest number over all
    the atoms of the cell. *)
Theorem C103_automatic_table :
  forall (V : Type) (row : vec -> V) (zero : V) (o : nlobj), nl_ok o -> forall asserts centres neighs, exists nnl,
  objs_automatic row zero o asserts centres neighs = Ok (map (map Some) (nl_table row zero o centres neighs nnl)) /\
  length nnl = length neighs /\
  (forall na nn, In (na, nn) (combine neighs nnl) -> (forall i, i < no_prim o -> length (nl_neighbours o i na) <= nn) /\
     (nn = 0 \/ exists i, i < no_prim o /\ length (nl_neighbours o i na) = nn)).
Proof. exact @objs_automatic_ok. Qed.
Print Assumptions C103_automatic_table.

(** With a reservation that is too small for one centre, the object writes outside
    its memory; the function that is given tables stops with an assertion. *)
Theorem C103_short_block_breaks :
  forall (V : Type) (row : vec -> V) (zero : V) (o : nlobj), nl_ok o -> forall asserts ca na nn i,
  In i (nl_centres o ca) -> nn < length (nl_neighbours o i na) ->
  pair_reserved row zero o asserts ca na nn = Err IndexError /\
  pair_generate row zero (nl_inum o) (nl_ilist o) (nl_numneigh o) (no_lists o) (no_x o) (no_types o) ca na nn = Err AssertionError.
Proof. exact @pair_short. Qed.
Print Assumptions C103_short_block_breaks.

Theorem C103_short_table_breaks :
  forall (V : Type) (row : vec -> V) (zero : V) (o : nlobj), nl_ok o -> forall asserts centres neighs nnl ii jj i,
  length neighs = length nnl -> ii < length centres -> jj < length neighs ->
  In i (nl_centres o (nth ii centres 0)) -> nth jj nnl 0 < length (nl_neighbours o i (nth jj neighs 0)) ->
  objs_reserved row zero o asserts centres neighs nnl = Err IndexError /\
  tilde_generate row zero (nl_inum o) (nl_ilist o) (nl_numneigh o) (no_lists o) (no_x o) (no_types o) centres neighs nnl = Err AssertionError.
Proof. exact @objs_short. Qed.
Print Assumptions C103_short_table_breaks.

(** An object made with a number of centres of its own: values are only ever given
    for the right number, and nothing is given without room for the neighbours. *)
Theorem C103_number_of_centres :
  forall (V : Type) (row : vec -> V) (zero : V) (o : nlobj), nl_ok o -> forall asserts ca na nc nn p,
  obj_pair row zero o asserts ca na nc nn = Ok p ->
  room o ca na nn /\ (asserts = true -> nc = length (nl_centres o ca)).
Proof. exact @obj_pair_produced. Qed.
Print Assumptions C103_number_of_centres.

(** With too many centres the values stop with an assertion, but the derivatives
    are given, with rows of zeros for centres that do not exist. *)
Theorem C103_extra_centres_refuted :
  forall (V : Type) (row : vec -> V) (zero : V) (o : nlobj), nl_ok o -> forall ca na nn extra, room o ca na nn ->
  obj_pair row zero o false ca na (length (nl_centres o ca) + extra) nn =
  Ok (map (fun i => nl_row row zero o i na nn) (nl_centres o ca) ++ repeat (repeat zero nn) extra) /\
  (0 < extra -> obj_pair row zero o true ca na (length (nl_centres o ca) + extra) nn = Err AssertionError).
Proof. exact @obj_pair_extra. Qed.
Print Assumptions C103_extra_centres_refuted.

(** Two species, one atom of each; the rows are measured from the atoms of the
    primitive copy (atoms 2 and 3 of the supercell). *)
Example C103_case :
  nl_ok ex_obj /\
  (forall ca na nn, In ca [3; 14] -> In (na, nn) (combine [3; 14] [2; 3]) -> room ex_obj ca na nn) /\
  (forall row : vec -> nat, objs_reserved row 9 ex_obj true [3; 14] [3; 14] [2; 3] =
     let r b c := Some (row (vsub (nl_at ex_obj b) (nl_at ex_obj c))) in
     Ok [[r 0 2; Some 9; r 3 2; r 1 2; Some 9]; [r 2 3; r 4 3; Some 9; Some 9; Some 9]]) /\
  (forall row : vec -> nat, objs_automatic row 9 ex_obj true [3; 14] [3; 14] =
     let r b c := Some (row (vsub (nl_at ex_obj b) (nl_at ex_obj c))) in
     Ok [[r 0 2; Some 9; r 3 2; r 1 2]; [r 2 3; r 4 3; Some 9; Some 9]]) /\
  (forall row : vec -> nat, pair_automatic row 9 ex_obj true 3 3 = Ok [[row (vsub (nl_at ex_obj 0) (nl_at ex_obj 2))]]).
Proof. split; [exact ex_obj_ok|]. split; [exact ex_room|]. repeat split. Qed.

Example C103_case_short :
  In 0 (nl_centres ex_obj (nth 0 [3; 14] 0)) /\ nth 1 [2; 1] 0 < length (nl_neighbours ex_obj 0 (nth 1 [3; 14] 0)) /\
  objs_reserved (fun _ => 1) 9 ex_obj true [3; 14] [3; 14] [2; 1] = Err IndexError /\
  obj_pair (fun _ => 1) 9 ex_obj false 14 3 2 2 = Ok [[1; 1]; [9; 9]].
Proof. repeat split; cbn; auto. Qed.
