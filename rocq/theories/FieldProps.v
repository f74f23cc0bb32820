(** C88, the parameters of a force field saved to a file.  A checkpoint is a list of named tensors,
    a tensor being anything with a shape. *)
From Coq Require Import String.
From Verif Require Import Base FieldModel FieldProofs FieldCases FieldSpec.
Local Open Scope string_scope.

(** ** C88 *)

(** With as many fitting layers as embedding layers, saving a complete checkpoint succeeds and the
    dictionary read back has exactly the weights and biases of every layer of every network, the
    scales of those residual layers that have one, the width M1 of the embedding, the M2 for which
    the descriptor has M1 * M2 entries and the layer sizes of both kinds of network.  With fewer
    fitting layers the same holds of the layers below the number of fitting layers only. *)
Theorem C88_saved : forall {V} (shape : V -> list nat) (checkpoint : list (string * V)), NoDup (map fst checkpoint) ->
  forall nE nF input es fs m1 m2, 0 < nE -> 0 < nF -> 0 < m1 -> List.length fs <= List.length es -> fs <> [] -> (exists front, es = app front [m1]) ->
  networks shape checkpoint "embedding_net" nE input es -> networks shape checkpoint "fitting_net" nF (m1 * m2) fs ->
  exists file, save_hdf5_file shape checkpoint nE (List.length es) nF (List.length fs) = Ok file /\ NoDup (map fst file) /\
  forall name d, get_hdf5_dict file name = Ok d <->
    (exists net p i j v, (net = "embedding_net" /\ i < nE \/ net = "fitting_net" /\ i < nF) /\ j < List.length fs /\ name = name_of net p i j /\ has checkpoint name v /\ d = Tensor v) \/
    name = "M1" /\ d = Number m1 \/ name = "M2" /\ d = Number m2 \/ name = "embedding_sizes" /\ d = Sizes es \/ name = "fitting_sizes" /\ d = Sizes fs.
Proof. exact @saved. Qed.
Print Assumptions C88_saved.
Example C88_case_saved : NoDup (map fst two_two) /\ networks (fun s => s) two_two "embedding_net" 1 1 [5; 4] /\ networks (fun s => s) two_two "fitting_net" 1 (4 * 2) [7; 1] /\
  exists file, save_hdf5_file (fun s => s) two_two 1 2 1 2 = Ok file /\ List.length file = 13 /\
  get_hdf5_dict file "embedding_net.0.resnet_dt.resnet_dt1" = Ok (Tensor [1; 4]) /\ get_hdf5_dict file "fitting_net.0.resnet_dt.resnet_dt1" = Err KeyError /\
  get_hdf5_dict file "M1" = Ok (Number 4) /\ get_hdf5_dict file "M2" = Ok (Number 2) /\ get_hdf5_dict file "fitting_sizes" = Ok (Sizes [7; 1]).
Proof. split; [exact two_two_nd|]. split; [exact two_two_emb|]. split; [exact two_two_fit|]. eexists. split; [vm_compute; reflexivity|]. vm_compute. repeat split. Qed.

(** Whatever else the checkpoint has, a missing weight or bias of a layer below the number of
    fitting layers is a KeyError. *)
Theorem C88_missing : forall {V} (shape : V -> list nat) (checkpoint : list (string * V)), NoDup (map fst checkpoint) -> forall nE nEL nF nFL net p i j,
  net = "embedding_net" /\ i < nE \/ net = "fitting_net" /\ i < nF -> j < nFL -> p <> Resnet ->
  (forall v, ~ has checkpoint (name_of net p i j) v) -> save_hdf5_file shape checkpoint nE nEL nF nFL = Err KeyError.
Proof. exact @missing. Qed.
Print Assumptions C88_missing.
Example C88_case_missing : save_hdf5_file (fun s => s) (filter (fun e => negb (fst e =? "fitting_net.0.bias.bias1")) two_two) 1 2 1 2 = Err KeyError.
Proof. vm_compute. reflexivity. Qed.

(** With fewer fitting layers than embedding layers the save succeeds without the last embedding
    layers, whose sizes it lists. *)
Theorem C88_layers_lost_refuted : forall {V} (shape : V -> list nat) (checkpoint : list (string * V)) nE nF input es fs m1 m2, NoDup (map fst checkpoint) ->
  0 < nE -> 0 < nF -> 0 < m1 -> List.length fs < List.length es -> fs <> [] -> (exists front, es = app front [m1]) ->
  networks shape checkpoint "embedding_net" nE input es -> networks shape checkpoint "fitting_net" nF (m1 * m2) fs ->
  exists file, save_hdf5_file shape checkpoint nE (List.length es) nF (List.length fs) = Ok file /\
  get_hdf5_dict file "embedding_sizes" = Ok (Sizes es) /\
  (forall i j p, List.length fs <= j -> get_hdf5_dict file (name_of "embedding_net" p i j) = Err KeyError).
Proof. exact @layers_lost. Qed.
Print Assumptions C88_layers_lost_refuted.
Example C88_case_lost : NoDup (map fst three_two) /\ networks (fun s => s) three_two "embedding_net" 1 1 [5; 5; 4] /\ networks (fun s => s) three_two "fitting_net" 1 (4 * 2) [7; 1] /\
  exists file, save_hdf5_file (fun s => s) three_two 1 3 1 2 = Ok file /\ get_hdf5_dict file "embedding_net.0.weights.weight2" = Err KeyError.
Proof. split; [exact three_two_nd|]. split; [exact three_two_emb|]. split; [exact three_two_fit|]. eexists. split; vm_compute; reflexivity. Qed.

(** With more fitting layers than embedding layers a complete checkpoint cannot be saved. *)
Theorem C88_not_saved_refuted : exists (checkpoint : list (string * list nat)) es fs, NoDup (map fst checkpoint) /\
  networks (fun s => s) checkpoint "embedding_net" 1 1 es /\ networks (fun s => s) checkpoint "fitting_net" 1 (4 * 2) fs /\ (exists front, es = app front [4]) /\
  save_hdf5_file (fun s => s) checkpoint 1 (List.length es) 1 (List.length fs) = Err KeyError.
Proof. exact refuted. Qed.
Print Assumptions C88_not_saved_refuted.
