(** Extraction of the parameters of a force field,
    matersdk/infer/pwmatmlff/deepmd/extractor.py ([FFExtractor]).

    A checkpoint is a dictionary of named tensors (any type with a shape); an HDF5 file is the list
    of its data sets.  Numbers of networks and layers are natural numbers.  Reading the checkpoint
    from disk and the element type of the tensors are not modelled.  [int(a / b)] is the integer
    quotient (Python divides in floating point, which agrees for sizes below 2^53). *)
From Coq Require Import String Ascii.
From Verif Require Import Base DataModel Arr.
Local Open Scope string_scope.

Section Field.
Context {V : Type}.
Variable shape : V -> list nat.

(** What a data set holds: extractor.py:65-151. *)
Inductive dataset : Type := Tensor (v : V) | Number (n : nat) | Sizes (l : list nat).

(** [dict[key]] *)
Fixpoint lookup {B} (d : list (string * B)) (key : string) : result B :=
  match d with [] => Err KeyError | (k, b) :: r => if key =? k then Ok b else lookup r key end.
(** h5py's [create_dataset]: a name can be used once. *)
Definition create (name : string) (d : dataset) (file : list (string * dataset)) : result (list (string * dataset)) :=
  if existsb (fun e => name =? fst e) file then Err ValueError else Ok (file ++ [(name, d)])%list.

(** The keys of the checkpoint, e.g. extractor.py:66, 70, 76. *)
Definition key (net part : string) (i j : nat) : string := net ++ "." ++ dec i ++ "." ++ part ++ dec j.
(** [format(n - 1)] *)
Definition pred_str (n : nat) : string := match n with 0 => "-1" | S m => dec m end.
(** [shape[-1]] and [shape[0]] *)
Definition last_dim (v : V) : result nat := match rev (shape v) with [] => Err IndexError | n :: _ => Ok n end.
Definition first_dim (v : V) : result nat := match shape v with [] => Err IndexError | n :: _ => Ok n end.

Variable checkpoint : list (string * V).

Definition copy (name : string) (file : list (string * dataset)) : result (list (string * dataset)) :=
  bind (lookup checkpoint name) (fun v => create name (Tensor v) file).
(** extractor.py:65-80 and 86-101, the body of the loops. *)
Definition save_layer (net : string) (i j : nat) (file : list (string * dataset)) : result (list (string * dataset)) :=
  bind (copy (key net "weights.weight" i j) file) (fun file =>
  bind (copy (key net "bias.bias" i j) file) (fun file =>
  match copy (key net "resnet_dt.resnet_dt" i j) file with
  | Err KeyError => Ok file
  | r => r
  end)).
Definition save_net (net : string) (nets layers : nat) (file : list (string * dataset)) : result (list (string * dataset)) :=
  foldM (fun file i => foldM (fun file j => save_layer net i j file) (seq 0 layers) file) (seq 0 nets) file.

(** extractor.py:60-156, [save_hdf5_file].  The embedding networks are written with the number of
    fitting layers, as in the code. *)
Definition save_hdf5_file (num_embedding_nets num_embedding_layers num_fitting_nets num_fitting_layers : nat) : result (list (string * dataset)) :=
  bind (save_net "embedding_net" num_embedding_nets num_fitting_layers []) (fun file =>
  bind (save_net "fitting_net" num_fitting_nets num_fitting_layers file) (fun file =>
  bind (lookup checkpoint ("embedding_net." ++ pred_str num_embedding_nets ++ ".bias.bias" ++ pred_str num_embedding_layers)) (fun b =>
  bind (last_dim b) (fun m1 =>
  bind (lookup checkpoint (key "fitting_net" "weights.weight" 0 0)) (fun w =>
  bind (first_dim w) (fun dim =>
  bind (if (m1 =? 0)%nat then Err ZeroDivisionError else Ok (dim / m1)) (fun m2 =>
  bind (create "M1" (Number m1) file) (fun file =>
  bind (create "M2" (Number m2) file) (fun file =>
  bind (mapM (fun j => bind (lookup checkpoint (key "embedding_net" "weights.weight" 0 j)) last_dim) (seq 0 num_embedding_layers)) (fun es =>
  bind (create "embedding_sizes" (Sizes es) file) (fun file =>
  bind (mapM (fun j => bind (lookup checkpoint (key "fitting_net" "weights.weight" 0 j)) last_dim) (seq 0 num_fitting_layers)) (fun fs =>
  create "fitting_sizes" (Sizes fs) file)))))))))))).

(** extractor.py:159-183, [get_hdf5_dict]: later entries of a name would replace earlier ones. *)
Definition get_hdf5_dict (file : list (string * dataset)) (name : string) : result dataset := lookup (rev file) name.
End Field.
Arguments dataset V : clear implicits.
