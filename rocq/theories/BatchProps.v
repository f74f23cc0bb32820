(** Batches of structures: the properties. *)
From Verif Require Import SlotSpec BatchModel BatchSpec BatchProofs BatchCases.
Local Open Scope nat_scope.
Local Open Scope list_scope.

(** ** C85 *)
(** When all structures reserve as many slots as the first, the part of each structure in
    the output is what the structure alone gives. *)
Theorem C85_env_independent inum rc rs first rest :
  let batch := first :: rest in
  let W := reserved (im_umax first) in
  (forall i, In i batch -> reserved (im_umax i) = W) ->
  (forall i, In i batch -> exists o, env_run inum rc rs i = Ok o) ->
  exists v dv, env_forward inum rc rs batch = Ok (v, dv) /\
    length v = length batch * (inum * W * 4) /\ length dv = length batch * (inum * W * 12) /\
    forall k i, nth_error batch k = Some i -> env_run inum rc rs i = Ok (part_of (inum * W * 4) k v, part_of (inum * W * 12) k dv).
Proof. exact (env_batch_equal inum rc rs first rest). Qed.
Print Assumptions C85_env_independent.

(** Structures that reserve fewer slots keep their own numbering of slots: their values come
    first, without gaps between the atoms, and zeros follow. *)
Theorem C85_env_narrower inum rc rs first rest :
  let batch := first :: rest in
  let W := reserved (im_umax first) in
  (forall i, In i batch -> reserved (im_umax i) <= W) ->
  (forall i, In i batch -> exists o, env_run inum rc rs i = Ok o) ->
  exists v dv, env_forward inum rc rs batch = Ok (v, dv) /\
    length v = length batch * (inum * W * 4) /\ length dv = length batch * (inum * W * 12) /\
    forall k i a da, nth_error batch k = Some i -> env_run inum rc rs i = Ok (a, da) ->
      part_of (inum * W * 4) k v = a ++ repeat 0%R (inum * (W - reserved (im_umax i)) * 4) /\
      part_of (inum * W * 12) k dv = da ++ repeat 0%R (inum * (W - reserved (im_umax i)) * 12).
Proof. exact (env_batch inum rc rs first rest). Qed.
Print Assumptions C85_env_narrower.

(** So the row of an atom may hold another atom's neighbour. *)
Theorem C85_narrower_refuted : exists v dv a da,
  env_forward 2 3 2 [roomy; tight] = Ok (v, dv) /\ env_run 2 3 2 tight = Ok (a, da) /\
  group 4 (slot_of (im_umax tight) 1 0 0) a <> repeat 0%R 4 /\
  group 4 (slot_of (im_umax roomy) 1 0 0) (part_of (2 * 2 * 4) 1 v) = repeat 0%R 4 /\
  group 4 (slot_of (im_umax roomy) 0 0 1) (part_of (2 * 2 * 4) 1 v) = group 4 (slot_of (im_umax tight) 1 0 0) a.
Proof. exact narrow_shifted. Qed.
Print Assumptions C85_narrower_refuted.

(** A last structure that reserves more slots than the first writes outside the output. *)
Theorem C85_env_last_wider inum rc rs first mid last :
  let batch := first :: mid ++ [last] in
  0 < inum -> reserved (im_umax first) < reserved (im_umax last) ->
  (forall i, In i batch -> exists o, env_run inum rc rs i = Ok o) ->
  env_forward inum rc rs batch = Err IndexError.
Proof. exact (env_last_wide inum rc rs first mid last). Qed.
Print Assumptions C85_env_last_wider.

(** One in the middle is cut off without any error. *)
Theorem C85_wider_refuted : exists v dv a da,
  env_forward 2 3 2 [tight; roomy; tight] = Ok (v, dv) /\ env_run 2 3 2 roomy = Ok (a, da) /\
  part_of (2 * 1 * 4) 1 v = firstn 8 a /\ length a = 16.
Proof. exact wide_middle. Qed.
Print Assumptions C85_wider_refuted.

(** The operators with one list of reserved slots for the batch treat every structure as if
    it were alone. *)
Theorem C85_pw_independent inum umax rc rs batch :
  let W := reserved umax in
  (forall i, In i batch -> exists o, pw_run inum umax rc rs i = Ok o) ->
  exists v dv rel, pw_forward inum umax rc rs batch = Ok (v, dv, rel) /\
    length v = length batch * (inum * W * 4) /\ length dv = length batch * (inum * W * 12) /\ length rel = length batch * (inum * W * 3) /\
    forall k i, nth_error batch k = Some i ->
      pw_run inum umax rc rs i = Ok (part_of (inum * W * 4) k v, part_of (inum * W * 12) k dv, part_of (inum * W * 3) k rel).
Proof. exact (pw_batch inum umax rc rs batch). Qed.
Print Assumptions C85_pw_independent.
Theorem C85_prim_independent inum umax batch :
  let W := reserved umax in
  let run i := prim_indices inum (im_numneigh i) (im_firstneigh i) (im_types i) umax in
  (forall i, In i batch -> exists o, run i = Ok o) ->
  exists a, prim_forward inum umax batch = Ok a /\ length a = length batch * (inum * W) /\
    forall k i, nth_error batch k = Some i -> run i = Ok (part_of (inum * W) k a).
Proof. exact (prim_batch inum umax batch). Qed.
Print Assumptions C85_prim_independent.

(** A structure that cannot be treated stops the batch. *)
Theorem C85_pw_failing inum umax rc rs batch k i e : nth_error batch k = Some i -> pw_run inum umax rc rs i = Err e ->
  (forall j i', j < k -> nth_error batch j = Some i' -> exists o, pw_run inum umax rc rs i' = Ok o) ->
  pw_forward inum umax rc rs batch = Err e.
Proof. exact (pw_failing inum umax rc rs batch k i e). Qed.
Print Assumptions C85_pw_failing.

(** Cases meeting the hypotheses. *)
Example C85_case_equal : exists v dv, env_forward 2 3 2 [tight; tight] = Ok (v, dv) /\ length v = 16 /\ length dv = 48.
Proof. exact equal_case. Qed.
Example C85_case_wider : env_forward 2 3 2 [tight; roomy] = Err IndexError.
Proof. exact wide_last_case. Qed.
Example C85_case_prim : prim_forward 2 [1] [tight; tight] = Ok [1; 0; 1; 0]%Z.
Proof. exact prim_case. Qed.
