(** Property C50: the full descriptor is the block matrix of the pair descriptors.
    [V] is what is stored per neighbour: the four values (row := tilde_row rc rs) or the
    twelve derivatives (row := pair_deriv rc rs). *)
From Verif Require Import Arr SeModel SlotModel SlotSpec TildeModel TildeSpec TildeProofs.
Open Scope nat_scope.

(** ** C50 *)

(** One pair of types: one row per centre of the first type, in list order; in it the
    neighbours of the second type, in list order, and then empty places. *)
Theorem C50_pair_block :
  forall (V : Type) (row : vec -> V) (zero : V) inum ilist numneigh firstneigh x types,
  lists_ok inum ilist numneigh firstneigh x types ->
  forall ca na nn,
  (forall i, In i (centres_of_type inum ilist types ca) -> length (neighbours_of_type numneigh firstneigh types i na) <= nn) ->
  pair_generate row zero inum ilist numneigh firstneigh x types ca na nn =
  Ok (map (fun i => padded row zero ilist numneigh firstneigh x types i na nn) (centres_of_type inum ilist types ca)).
Proof. exact @pair_generate_ok. Qed.
Print Assumptions C50_pair_block.

(** The full descriptor: every cell is written, centres grouped by type, neighbour
    types side by side. *)
Theorem C50_block_matrix :
  forall (V : Type) (row : vec -> V) (zero : V) inum ilist numneigh firstneigh x types,
  lists_ok inum ilist numneigh firstneigh x types ->
  forall centres neighs nnl, length neighs = length nnl ->
  (forall ca na nn i, In ca centres -> In (na, nn) (combine neighs nnl) -> In i (centres_of_type inum ilist types ca) ->
     length (neighbours_of_type numneigh firstneigh types i na) <= nn) ->
  tilde_generate row zero inum ilist numneigh firstneigh x types centres neighs nnl =
  Ok (map (map Some) (whole row zero inum ilist numneigh firstneigh x types centres neighs nnl)).
Proof. exact @tilde_generate_ok. Qed.
Print Assumptions C50_block_matrix.

(** Offsets: block (ii, jj) starts at the row that is the number of centres of the earlier
    types and at the column that is the number of places of the earlier neighbour types. *)
Theorem C50_offsets :
  forall (V : Type) (row : vec -> V) (zero : V) inum ilist numneigh firstneigh x types centres neighs nnl ii jj kk ll,
  length neighs = length nnl ->
  (forall ca na nn i, In ca centres -> In (na, nn) (combine neighs nnl) -> In i (centres_of_type inum ilist types ca) ->
     length (neighbours_of_type numneigh firstneigh types i na) <= nn) ->
  ii < length centres -> jj < length neighs ->
  kk < length (centres_of_type inum ilist types (nth ii centres 0)) -> ll < nth jj nnl 0 ->
  nth (list_sum (firstn jj nnl) + ll)
    (nth (list_sum (firstn ii (map (fun ca => length (centres_of_type inum ilist types ca)) centres)) + kk)
      (whole row zero inum ilist numneigh firstneigh x types centres neighs nnl) []) zero =
  nth ll (padded row zero ilist numneigh firstneigh x types (nth kk (centres_of_type inum ilist types (nth ii centres 0)) 0)
            (nth jj neighs 0) (nth jj nnl 0)) zero.
Proof. exact @whole_at. Qed.
Print Assumptions C50_offsets.

(** A reservation that is too small for one centre stops the program; nothing is dropped. *)
Theorem C50_too_small :
  forall (V : Type) (row : vec -> V) (zero : V) inum ilist numneigh firstneigh x types,
  lists_ok inum ilist numneigh firstneigh x types ->
  forall centres neighs nnl ii jj i, length neighs = length nnl -> ii < length centres -> jj < length neighs ->
  In i (centres_of_type inum ilist types (nth ii centres 0)) ->
  nth jj nnl 0 < length (neighbours_of_type numneigh firstneigh types i (nth jj neighs 0)) ->
  tilde_generate row zero inum ilist numneigh firstneigh x types centres neighs nnl = Err AssertionError.
Proof. exact @tilde_generate_bad. Qed.
Print Assumptions C50_too_small.

(** The reservation computed automatically is the largest count over the centres ... *)
Theorem C50_reservation_is_max :
  forall inum ilist numneigh firstneigh (x : list vec) types,
  lists_ok inum ilist numneigh firstneigh x types ->
  forall na, exists m, calc_num_neigh inum numneigh firstneigh types na = Ok m /\
  (forall i, i < inum -> length (neighbours_of_type numneigh firstneigh types i na) <= m) /\
  (m = 0 \/ exists i, i < inum /\ length (neighbours_of_type numneigh firstneigh types i na) = m).
Proof. exact calc_num_neigh_ok. Qed.
Print Assumptions C50_reservation_is_max.

(** ... so with it the descriptor is always complete. *)
Theorem C50_automatic_complete :
  forall (V : Type) (row : vec -> V) (zero : V) inum ilist numneigh firstneigh x types,
  lists_ok inum ilist numneigh firstneigh x types ->
  forall centres neighs nnl, mapM (calc_num_neigh inum numneigh firstneigh types) neighs = Ok nnl ->
  tilde_generate row zero inum ilist numneigh firstneigh x types centres neighs nnl =
  Ok (map (map Some) (whole row zero inum ilist numneigh firstneigh x types centres neighs nnl)).
Proof. exact @tilde_auto. Qed.
Print Assumptions C50_automatic_complete.

(** A case: two centres of types 3 and 14, two images, places for two neighbours of each type. *)
Example C50_case_tables : lists_ok 2 [0; 1] [3; 2] [[1; 2; 3]; [0; 3; 7]] ex_x ex_types.
Proof. exact ex_lists_ok. Qed.
Example C50_case_enough : forall ca na nn i, In ca [3; 14] -> In (na, nn) (combine [3; 14] [2; 2]) -> In i (centres_of_type 2 [0; 1] ex_types ca) ->
  length (neighbours_of_type [3; 2] [[1; 2; 3]; [0; 3; 7]] ex_types i na) <= nn.
Proof. exact ex_enough. Qed.
Example C50_case_matrix : forall row : vec -> nat, whole row 9 2 [0; 1] [3; 2] [[1; 2; 3]; [0; 3; 7]] ex_x ex_types [3; 14] [3; 14] [2; 2] =
  [[row (vsub (0, 1, 0) (0, 0, 0))%R; 9; row (vsub (1, 0, 0) (0, 0, 0))%R; row (vsub (1, 1, 0) (0, 0, 0))%R];
   [row (vsub (0, 0, 0) (1, 0, 0))%R; 9; row (vsub (1, 1, 0) (1, 0, 0))%R; 9]].
Proof. exact ex_whole. Qed.
Example C50_case_auto : mapM (calc_num_neigh 2 [3; 2] [[1; 2; 3]; [0; 3; 7]] ex_types) [3; 14] = Ok [1; 2].
Proof. exact ex_auto. Qed.
Example C50_case_too_small :
  tilde_generate (fun _ => 1) 0 2 [0; 1] [3; 2] [[1; 2; 3]; [0; 3; 7]] ex_x ex_types [3; 14] [3; 14] [1; 1] = Err AssertionError.
Proof. exact ex_small. Qed.
