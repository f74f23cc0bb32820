(** The descriptor object of the C++ library and its memory: the properties. *)
From Verif Require Import HeapModel TildeMemModel TildeMemSpec TildeMemFinal TildeMemCases.
Local Open Scope nat_scope.
Local Open Scope list_scope.

(** ** C102 *)
(** Every program of constructions with central and neighbouring species, copies, assignments and
    destructions, over any number of variables: it runs exactly when every command has a meaning
    (none has the copy of an object with two species, nor the assignment of an object with atoms to
    itself); then every variable shows the species, cutoffs, numbers of atoms and shapes of its value, and the
    memory in use is what the values need and four blocks for every copy of an empty object. *)
Theorem C102_programs l n : Forall proper l ->
  match tmeaning_all l (tnone n, 0) with
  | Some (vs, lost) => exists s, trun l (tstart n) = HOk s /\ (forall x, tseen s x = texpected (tholds vs x)) /\
      blocks_in_use (snd s) = tneeded_all vs + lost
  | None => exists e, trun l (tstart n) = HErr e
  end.
Proof. exact (tprograms l n). Qed.
Print Assumptions C102_programs.

(** What happens to other variables never shows. *)
Theorem C102_independent l1 l2 n s1 s2 x : Forall proper (l1 ++ l2) -> trun l1 (tstart n) = HOk s1 -> trun l2 s1 = HOk s2 ->
  Forall (fun c => ttarget c <> x) l2 -> tseen s2 x = tseen s1 x.
Proof. exact (tothers_stay l1 l2 n s1 s2 x). Qed.
Print Assumptions C102_independent.

(** An assignment between different variables always works: the target then shows what the source shows. *)
Theorem C102_assignment l x y n s : Forall proper l -> x <> y -> trun l (tstart n) = HOk s ->
  (exists r, tseen s x = HOk r) -> (exists r, tseen s y = HOk r) ->
  exists s', trun (l ++ [TAssign x y]) (tstart n) = HOk s' /\ tseen s' x = tseen s y /\ tseen s' y = tseen s y.
Proof. exact (tassign_same l x y n s). Qed.
Print Assumptions C102_assignment.

(** A copy of an object with two or more central or neighbouring species writes outside its memory, always. *)
Theorem C102_copy_breaks l x y n s m : Forall proper l -> trun l (tstart n) = HOk s -> x < n -> tseen s x = HErr NoObject ->
  tseen s y = HOk (Some m) -> 2 <= length (s_centers m) \/ 2 <= length (s_neighs m) ->
  trun (l ++ [TCopy x y]) (tstart n) = HErr OutOfBounds.
Proof. exact (tcopy_fails l x y n s m). Qed.
Print Assumptions C102_copy_breaks.

(** With one of each the copy shows what the original shows. *)
Theorem C102_copy l x y n s m a b : Forall proper l -> trun l (tstart n) = HOk s -> x < n -> tseen s x = HErr NoObject ->
  tseen s y = HOk (Some m) -> s_centers m = [a] -> s_neighs m = [b] ->
  exists s', trun (l ++ [TCopy x y]) (tstart n) = HOk s' /\ tseen s' x = HOk (Some m) /\ tseen s' y = HOk (Some m).
Proof. exact (tcopy_works l x y n s m a b). Qed.
Print Assumptions C102_copy.

(** An object with central atoms assigned to itself is read after its memory was released, always. *)
Theorem C102_self_assignment_breaks l x n s m : Forall proper l -> trun l (tstart n) = HOk s -> tseen s x = HOk (Some m) ->
  fst (s_shape m) <> 0%Z -> trun (l ++ [TAssign x x]) (tstart n) = HErr UseAfterFree.
Proof. exact (tself_fails l x n s m). Qed.
Print Assumptions C102_self_assignment_breaks.

(** Without copies, when no variable shows species any more all memory was given back. *)
Theorem C102_nothing_lost l n s : Forall proper l -> forallb (fun c => negb (copies c)) l = true -> trun l (tstart n) = HOk s ->
  (forall x, tseen s x = HErr NoObject \/ tseen s x = HOk None) -> blocks_in_use (snd s) = 0.
Proof. exact (tnothing_lost l n s). Qed.
Print Assumptions C102_nothing_lost.

(** With copies of empty objects this is false. *)
Theorem C102_empty_copy_breaks : exists s, trun [TDefault 0; TCopy 1 0; TDestroy 0; TDestroy 1] (tstart 2) = HOk s /\
  (forall x, tseen s x = HErr NoObject) /\ blocks_in_use (snd s) = 4.
Proof. exact empty_copy_loses. Qed.
Print Assumptions C102_empty_copy_breaks.

(** Without neighbouring species memory is released twice. *)
Theorem C102_no_neighbours_breaks :
  trun [two_species; TMake 1 small_list [3]%Z [] None 4; TAssign 0 1; TAssign 0 1] (tstart 2) = HErr DoubleFree.
Proof. exact no_neighbours. Qed.
Print Assumptions C102_no_neighbours_breaks.

(** Tests: a program that meets the hypotheses, and programs that fail. *)
Example C102_case_proper : Forall proper [two_species; given_counts; TAssign 1 0; TDefault 2; TAssign 2 1; TDestroy 0].
Proof. exact two_proper. Qed.
Example C102_case_made : outcome [two_species; given_counts] =
  HOk ([HOk (Some {| s_centers := [3; 42]; s_neighs := [3; 42]; s_rcut := 5; s_smooth := 4; s_ccounts := [2; 1]; s_ncounts := [3; 2]; s_shape := (3, 5) |}%Z);
        HOk (Some {| s_centers := [42]; s_neighs := [3; 42]; s_rcut := 5; s_smooth := 4; s_ccounts := [1]; s_ncounts := [10; 20]; s_shape := (1, 30) |}%Z);
        HErr NoObject], 8).
Proof. vm_compute. reflexivity. Qed.
Example C102_case_assigned : outcome [two_species; given_counts; TAssign 1 0; TDefault 2; TAssign 2 1; TDestroy 0] =
  HOk ([HErr NoObject;
        HOk (Some {| s_centers := [3; 42]; s_neighs := [3; 42]; s_rcut := 5; s_smooth := 4; s_ccounts := [2; 1]; s_ncounts := [3; 2]; s_shape := (3, 5) |}%Z);
        HOk (Some {| s_centers := [3; 42]; s_neighs := [3; 42]; s_rcut := 5; s_smooth := 4; s_ccounts := [2; 1]; s_ncounts := [3; 2]; s_shape := (3, 5) |}%Z)], 8).
Proof. vm_compute. reflexivity. Qed.
Example C102_case_copy : outcome [one_species; TCopy 1 0; TDestroy 0] =
  HOk ([HErr NoObject; HOk (Some {| s_centers := [3]; s_neighs := [42]; s_rcut := 5; s_smooth := 4; s_ccounts := [2]; s_ncounts := [2]; s_shape := (2, 2) |}%Z); HErr NoObject], 4).
Proof. vm_compute. reflexivity. Qed.
Example C102_case_copy_breaks : outcome [two_species; TCopy 1 0] = HErr OutOfBounds.
Proof. vm_compute. reflexivity. Qed.
Example C102_case_itself : outcome [two_species; TAssign 0 0] = HErr UseAfterFree.
Proof. vm_compute. reflexivity. Qed.
Example C102_case_too_few_counts : outcome [TMake 0 small_list [3]%Z [3; 42]%Z (Some [7]%Z) 4] = HErr OutOfBounds.
Proof. vm_compute. reflexivity. Qed.
Example C102_case_released : outcome [two_species; TDefault 1; TAssign 0 1; TDestroy 1] = HOk ([HOk None; HErr NoObject; HErr NoObject], 0).
Proof. vm_compute. reflexivity. Qed.
