(** Vocabulary for data files that are read and saved one at a time, without a collection. *)
From Coq Require Import String Sorted.
From Verif Require Import Base ElementModel DataModel DataSpec.

Section Solo.
Context {F : Type}.
Variable an : F -> Z.

(** A user's loop: every file is read with [InfoSet.from_file] (infoset.py:58-134) and saved with
    [to_dir] (infoset.py:137-177) into the same directory; the first exception ends it. *)
Fixpoint save_alone (dir : list (@formula_dir F)) (files : list raw) (p : nat) : list formula_dir * result unit :=
  match files with
  | [] => (dir, Ok tt)
  | m :: r =>
      match from_file an m None with
      | Err e => (dir, Err e)
      | Ok s => match to_dir dir s (Some (Z.of_nat p)) with
                | (dir', Ok _) => save_alone dir' r p
                | bad => bad
                end
      end
  end.

(** [els] are the elements of the first frame, each once, by increasing atomic number. *)
Definition elements (m : @raw F) (els : list Z) : Prop :=
  StronglySorted Z.lt els /\ forall a, In a els <-> In a (head_numbers an m).

(** The recorded counts: for every element its symbol and the number of its atoms. *)
Definition recorded (m : @raw F) (els : list Z) (s : @infoset F) : Prop :=
  Forall2 (fun a p => symbol_of a = Ok (fst p) /\ snd p = List.length (filter (Z.eqb a) (head_numbers an m))) els (is_dict s).

(** No two files have the same composition. *)
Definition all_different (files : list (@raw F)) : Prop := ForallOrdPairs (fun m m' => same_composition an m m' = false) files.

(** A directory holds one file's set, in parts of [p]. *)
Definition keeps (p : nat) (m : @raw F) (d : @formula_dir F) : Prop :=
  exists s, from_file an m None = Ok s /\ fd_name d = is_formula s /\ fd_types d = each_line (map fst (is_dict s)) /\ holds_set (fd_parts d) s p.
End Solo.
