(** Independent vocabulary for saved force field parameters. *)
From Coq Require Import String Ascii DecimalString.
From Verif Require Import Base.
Local Open Scope string_scope.

Definition decimal (n : nat) : string := NilZero.string_of_uint (Nat.to_uint n).
Inductive part : Type := Weight | Bias | Resnet.
Definition part_name (p : part) : string := match p with Weight => "weights.weight" | Bias => "bias.bias" | Resnet => "resnet_dt.resnet_dt" end.
(** The name of a parameter, e.g. embedding_net.0.weights.weight1. *)
Definition name_of (net : string) (p : part) (i j : nat) : string := net ++ "." ++ decimal i ++ "." ++ part_name p ++ decimal j.

(** The tensor of a name. *)
Definition has {V} (checkpoint : list (string * V)) (name : string) (v : V) : Prop := In (name, v) checkpoint.

(** [n] networks with input width [input] and layers of the given sizes: weights are matrices
    input times output, biases end in the output size. *)
Definition networks {V} (shape : V -> list nat) (checkpoint : list (string * V)) (net : string) (n input : nat) (sizes : list nat) : Prop :=
  forall i j s, i < n -> nth_error sizes j = Some s ->
  (exists w, has checkpoint (name_of net Weight i j) w /\ shape w = [nth j (input :: sizes) 0; s]) /\
  (exists b pre, has checkpoint (name_of net Bias i j) b /\ shape b = app pre [s]).
