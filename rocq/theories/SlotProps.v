(** Property C49: the slot layout of the typed descriptors. *)
From Verif Require Import Arr SeModel SlotModel SlotSpec SlotProofs.
Open Scope nat_scope.

(** ** C49 *)

(** Every slot of the output belongs to exactly one (centre, type, position). *)
Theorem C49_slots_unique :
  forall umax inum q, q < inum * reserved umax ->
  exists i t p, (i < inum /\ t < length umax /\ p < nth t umax 0 /\ slot_of umax i t p = q) /\
  forall i' t' p', t' < length umax -> p' < nth t' umax 0 -> slot_of umax i' t' p' = q -> i' = i /\ t' = t /\ p' = p.
Proof. exact slot_unique. Qed.
Print Assumptions C49_slots_unique.

(** Environment matrix with enough slots: the p-th neighbour of type t of centre i
    (in list order) is in slot (i, t, p), values and derivatives; the remaining slots are zero. *)
Theorem C49_env_layout :
  forall inum numneigh firstneigh rel types umax rc rs,
  table_ok inum numneigh firstneigh types umax -> enough_reserved inum numneigh firstneigh types umax ->
  (forall i j, i < inum -> j < nth i numneigh 0 -> 3 * (i * reserved umax + j) + 2 < length rel) ->
  exists v dv, find_value_deriv inum numneigh firstneigh rel types umax rc rs = Ok (v, dv) /\
  length v = inum * reserved umax * 4 /\ length dv = inum * reserved umax * 12 /\
  forall i t p, i < inum -> t < length umax -> p < nth t umax 0 ->
    match nth_error (of_type (reserved umax) numneigh firstneigh types i t) p with
    | Some j => group 4 (slot_of umax i t p) v = tilde_row rc rs (point rel (i * reserved umax + j)) /\
                group 12 (slot_of umax i t p) dv = concat (env_deriv rc rs (point rel (i * reserved umax + j)))
    | None => group 4 (slot_of umax i t p) v = repeat 0%R 4 /\ group 12 (slot_of umax i t p) dv = repeat 0%R 12
    end.
Proof. exact env_layout. Qed.
Print Assumptions C49_env_layout.

(** Plane-wave variant: the same layout, from the atoms' coordinates, and the relative coordinates as third output. *)
Theorem C49_pw_layout :
  forall inum ilist numneigh firstneigh x types umax rc rs,
  table_ok inum numneigh firstneigh types umax -> enough_reserved inum numneigh firstneigh types umax ->
  inum <= length ilist -> (forall i, i < inum -> 3 * nth i ilist 0 + 2 < length x) ->
  (forall i j, i < inum -> j < nth i numneigh 0 -> 3 * neighbour (reserved umax) firstneigh i j + 2 < length x) ->
  exists v dv rel, se4pw_generate inum ilist numneigh firstneigh x types umax rc rs = Ok (v, dv, rel) /\
  length v = inum * reserved umax * 4 /\ length dv = inum * reserved umax * 12 /\ length rel = inum * reserved umax * 3 /\
  forall i t p, i < inum -> t < length umax -> p < nth t umax 0 ->
    match nth_error (of_type (reserved umax) numneigh firstneigh types i t) p with
    | Some j => let d := vsub (point x (neighbour (reserved umax) firstneigh i j)) (point x (nth i ilist 0)) in
                group 4 (slot_of umax i t p) v = tilde_row rc rs d /\
                group 12 (slot_of umax i t p) dv = concat (pair_deriv rc rs d) /\
                group 3 (slot_of umax i t p) rel = [vx d; vy d; vz d]
    | None => group 4 (slot_of umax i t p) v = repeat 0%R 4 /\ group 12 (slot_of umax i t p) dv = repeat 0%R 12 /\
              group 3 (slot_of umax i t p) rel = repeat 0%R 3
    end.
Proof. exact pw_layout. Qed.
Print Assumptions C49_pw_layout.

(** The index table holds the primitive atom of each neighbour, and -1 in empty slots. *)
Theorem C49_prim_layout :
  forall inum numneigh firstneigh types umax,
  table_ok inum numneigh firstneigh types umax -> enough_reserved inum numneigh firstneigh types umax ->
  exists a, prim_indices inum numneigh firstneigh types umax = Ok a /\ length a = inum * reserved umax /\
  forall i t p, i < inum -> t < length umax -> p < nth t umax 0 ->
    nth_error a (slot_of umax i t p) =
    match nth_error (of_type (reserved umax) numneigh firstneigh types i t) p with
    | Some j => Some (Z.of_nat (neighbour (reserved umax) firstneigh i j mod inum))
    | None => Some (-1)%Z
    end.
Proof. exact prim_layout. Qed.
Print Assumptions C49_prim_layout.

(** Without the reservation: every slot holds what the last neighbour assigned to it left. *)
Theorem C49_last_writer :
  forall inum numneigh firstneigh rel types umax rc rs,
  let place i j := slot_of umax i (neighbour_type (reserved umax) firstneigh types i j) (rank (reserved umax) firstneigh types i j) in
  table_ok inum numneigh firstneigh types umax ->
  (forall i j, i < inum -> j < nth i numneigh 0 -> 3 * (i * reserved umax + j) + 2 < length rel) ->
  (forall i j, i < inum -> j < nth i numneigh 0 -> place i j < inum * reserved umax) ->
  exists v dv, find_value_deriv inum numneigh firstneigh rel types umax rc rs = Ok (v, dv) /\
  forall q, q < inum * reserved umax ->
    (exists i j, i < inum /\ j < nth i numneigh 0 /\ place i j = q /\
       (forall i' j', i' < inum -> j' < nth i' numneigh 0 -> place i' j' = q -> i' < i \/ i' = i /\ j' <= j) /\
       group 4 q v = tilde_row rc rs (point rel (i * reserved umax + j)) /\
       group 12 q dv = concat (env_deriv rc rs (point rel (i * reserved umax + j)))) \/
    ((forall i j, i < inum -> j < nth i numneigh 0 -> place i j <> q) /\ group 4 q v = repeat 0%R 4 /\ group 12 q dv = repeat 0%R 12).
Proof. exact env_general. Qed.
Print Assumptions C49_last_writer.

(** A surplus neighbour is assigned to the next type's block, of the last type to the next centre's row. *)
Theorem C49_surplus_next_type :
  forall umax i t p, t < length umax -> slot_of umax i t (nth t umax 0 + p) = slot_of umax i (S t) p.
Proof. exact surplus_next_type. Qed.
Print Assumptions C49_surplus_next_type.
Theorem C49_surplus_next_centre :
  forall umax i p, slot_of umax i (length umax) p = slot_of umax (S i) 0 p.
Proof. exact surplus_next_centre. Qed.
Print Assumptions C49_surplus_next_centre.

(** If that is behind the last row, memory outside the output is written. *)
Theorem C49_surplus_outside :
  forall inum numneigh firstneigh rel types umax rc rs i j,
  table_ok inum numneigh firstneigh types umax ->
  (forall i j, i < inum -> j < nth i numneigh 0 -> 3 * (i * reserved umax + j) + 2 < length rel) ->
  i < inum -> j < nth i numneigh 0 ->
  inum * reserved umax <= slot_of umax i (neighbour_type (reserved umax) firstneigh types i j) (rank (reserved umax) firstneigh types i j) ->
  find_value_deriv inum numneigh firstneigh rel types umax rc rs = Err IndexError.
Proof. exact env_outside. Qed.
Print Assumptions C49_surplus_outside.

(** Cases: two centres, two types; then one neighbour of type 0 too many, lost to the neighbour of type 1. *)
Example C49_case :
  table_ok 2 [2; 3] [1; 0; 0; 1; 0; 0] [0; 1] [2; 1] /\ enough_reserved 2 [2; 3] [1; 0; 0; 1; 0; 0] [0; 1] [2; 1] /\
  prim_indices 2 [2; 3] [1; 0; 0; 1; 0; 0] [0; 1] [2; 1] = Ok [0; -1; 1; 0; 0; 1]%Z.
Proof. exact slot_case. Qed.
Example C49_surplus_case :
  table_ok 1 [3] [0; 2; 1] [0; 1; 0] [1; 2] /\
  prim_indices 1 [3] [0; 2; 1] [0; 1; 0] [1; 2] = Ok [0; 0; -1]%Z /\
  rank 3 [0; 2; 1] [0; 1; 0] 0 1 = 1 /\ slot_of [1; 2] 0 0 1 = slot_of [1; 2] 0 1 0.
Proof. exact slot_surplus_case. Qed.
