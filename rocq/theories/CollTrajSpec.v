(** What a collection made from a trajectory file has to contain. *)
From Verif Require Import Base Text MovementModel DataModel DataSpec ExtractorSpec.

Section Spec.
Context {F : Type}.
Variable pfloat : string -> result F.
Variable from_str : string -> result (@struct F).

(** The texts of the frames of a file that was opened, in order. *)
Definition frame_texts (m : mv) (texts : list string) : Prop :=
  List.length texts = num_frames m /\ forall k t, nth_error texts k = Some t <-> k < num_frames m /\ get_frame_str m k = Ok t.

(** The energies of a frame: the three words after the second word with an equals sign in the first
    line; a comma at the end of the third is not part of the number. *)
Definition energies_of (t : string) (e : F * F * F) : Prop :=
  exists line rest front x between y a b c c' others, split_on nl t = line :: rest /\
  split_ws line = front ++ x :: between ++ y :: a :: b :: c :: others /\ heads "=" x /\ heads "=" y /\
  Forall (fun w => ~ heads "=" w) front /\ Forall (fun w => ~ heads "=" w) between /\
  (c = c' +++ "," \/ c = c' /\ ~ exists d, c = d +++ ",") /\
  pfloat a = Ok (fst (fst e)) /\ pfloat b = Ok (snd (fst e)) /\ pfloat c' = Ok (snd e).

(** Structure, energies and stress (if any) of one frame. *)
Definition frame_is (t : string) (s : @struct F) (e : F * F * F) (v : option (list (list F))) : Prop :=
  from_str t = Ok s /\ energies_of t e /\ stress_of pfloat (split_on nl t) v.

(** Frame by frame. *)
Inductive frames_are : list string -> list (@struct F) -> list (F * F * F) -> list (option (list (list F))) -> Prop :=
| frames_none : frames_are [] [] [] []
| frames_more t s e v ts ss es vs : frame_is t s e v -> frames_are ts ss es vs -> frames_are (t :: ts) (s :: ss) (e :: es) (v :: vs).

(** The frames that have a stress. *)
Definition stressed (vs : list (option (list (list F)))) : list (list (list F)) :=
  flat_map (fun v => match v with Some t => [t] | None => [] end) vs.

(** Structures that can be put into common arrays. *)
Definition alike (ss : list (@struct F)) : Prop :=
  equal_lengths (map st_box ss) /\ equal_lengths (map (fun s => concat (st_coords s)) ss) /\
  equal_lengths (map (fun s => concat (st_forces s)) ss) /\ equal_lengths (map st_energies ss).
End Spec.
