(** Life of structures in memory: the properties. *)
From Verif Require Import LifeModel LifeSpec LifeCases.
Local Open Scope nat_scope.
Local Open Scope list_scope.

(** ** C86 *)
(** Every program of constructions, copies, assignments, enlargements by positive factors and
    destructions, over any number of variables: it runs exactly when the values it asks for
    exist; then every variable shows the value that structures without memory would have, and
    the memory in use is what the structures in the variables need and nothing more. *)
Theorem C86_programs l n : Forall enlarges_properly l ->
  match meaning_all l (repeat None n) with
  | Some vs => exists s, run l (start n) = HOk s /\ (forall x, seen s x = expected (holds vs x)) /\ in_use (snd s) = needed_all vs
  | None => exists e, run l (start n) = HErr e
  end.
Proof. exact (programs l n). Qed.
Print Assumptions C86_programs.

(** What happens to other variables never shows: whatever is done to the original after a copy,
    or to the copy, or released. *)
Theorem C86_independent l1 l2 n s1 s2 x : Forall enlarges_properly (l1 ++ l2) -> run l1 (start n) = HOk s1 -> run l2 s1 = HOk s2 ->
  Forall (fun c => target c <> x) l2 -> seen s2 x = seen s1 x.
Proof. exact (others_stay l1 l2 n s1 s2 x). Qed.
Print Assumptions C86_independent.

(** A copy shows what the original shows. *)
Theorem C86_copy l x y n s : Forall enlarges_properly l -> run (l ++ [Copy x y]) (start n) = HOk s ->
  seen s x = seen s y /\ exists r, seen s y = HOk r.
Proof. exact (copy_same l x y n s). Qed.
Print Assumptions C86_copy.

(** So does the target of an assignment from another variable. *)
Theorem C86_assignment l x y n s : Forall enlarges_properly l -> x <> y -> run (l ++ [Assign x y]) (start n) = HOk s ->
  seen s x = seen s y /\ exists r, seen s y = HOk r.
Proof. exact (assign_same l x y n s). Qed.
Print Assumptions C86_assignment.

(** Assigned to itself a structure loses its atoms, whatever it showed before. *)
Theorem C86_self_assignment_breaks l x n s1 r : Forall enlarges_properly l -> run l (start n) = HOk s1 -> seen s1 x = HOk r ->
  exists s, run (l ++ [Assign x x]) (start n) = HOk s /\ seen s x = HOk None.
Proof. exact (assign_itself l x n s1 r). Qed.
Print Assumptions C86_self_assignment_breaks.

(** When no variable shows atoms any more, all memory was given back. *)
Theorem C86_nothing_lost l n s : Forall enlarges_properly l -> run l (start n) = HOk s ->
  (forall x, seen s x = HErr NoObject \/ seen s x = HOk None) -> in_use (snd s) = 0.
Proof. exact (nothing_lost l n s). Qed.
Print Assumptions C86_nothing_lost.

(** With a factor of zero memory is lost: the program ends with no structure and memory in use. *)
Theorem C86_zero_factor_breaks :
  exists s, run [one_atom; Enlarge 0 0 1 1; Destroy 0] (start 1) = HOk s /\ (forall x, seen s x = HErr NoObject) /\ in_use (snd s) > 0.
Proof. exact zero_loses. Qed.
Print Assumptions C86_zero_factor_breaks.

(** The first enlargement of a structure whose atoms lie in the cell at the origin gives one
    whose atoms lie in the cell at the new origin, with as many copies as cells. *)
Theorem C86_enlarged_inside l x s0 s1 s2 n st p : Forall enlarges_properly l -> run l (start n) = HOk st -> seen st x = HOk (Some p) ->
  p_origin p = [0; 0; 0]%Z -> inside p -> 0 < s0 -> 0 < s1 -> 0 < s2 ->
  exists st' p', run (l ++ [Enlarge x s0 s1 s2]) (start n) = HOk st' /\ seen st' x = HOk (Some p') /\ inside p' /\
    length (p_sites p') = length (p_sites p) * s0 * s1 * s2 /\
    p_origin p' = vcomb [first_cell s0; first_cell s1; first_cell s2] (p_basis p).
Proof. exact (enlarging_keeps_inside l x s0 s1 s2 n st p). Qed.
Print Assumptions C86_enlarged_inside.

(** The second enlargement forgets the origin of the first: atoms lie outside the cell. *)
Theorem C86_enlarged_twice_refuted :
  exists s p, run [one_atom; Enlarge 0 3 1 1; Enlarge 0 1 1 1] (start 1) = HOk s /\ seen s 0 = HOk (Some p) /\ ~ inside p.
Proof. exact twice_not_inside. Qed.
Print Assumptions C86_enlarged_twice_refuted.

(** Tests: a program with two structures that meets the hypotheses, and programs that fail. *)
Definition demo : list command :=
  [Make 0 2 [[2; 0; 0]; [0; 3; 0]; [1; 0; 4]]%Z [3; 8]%Z [[0; 0; 0]; [1; 1; 1]]%Z false; Copy 1 0; Enlarge 1 2 1 1; Raw 2 5; Assign 2 1; Destroy 1].
Definition demo_seen (l : list command) : hres (list (hres (option printed)) * nat) :=
  hbind (run l (start 3)) (fun s => HOk (map (seen s) [0; 1; 2], in_use (snd s))).
Example C86_case_hypothesis : Forall enlarges_properly demo.
Proof. repeat constructor. Qed.
Example C86_case_demo : demo_seen demo =
  HOk ([HOk (Some {| p_basis := [[2; 0; 0]; [0; 3; 0]; [1; 0; 4]]%Z; p_origin := [0; 0; 0]%Z; p_sites := [(3, [0; 0; 0]); (8, [3; 3; 4])]%Z |});
        HErr NoObject;
        HOk (Some {| p_basis := [[4; 0; 0]; [0; 3; 0]; [1; 0; 4]]%Z; p_origin := [0; 0; 0]%Z;
                     p_sites := [(3, [0; 0; 0]); (8, [3; 3; 4]); (3, [2; 0; 0]); (8, [5; 3; 4])]%Z |})], 20).
Proof. vm_compute. reflexivity. Qed.
Example C86_case_released : demo_seen (demo ++ [Destroy 0; Assign 2 2]) = HOk ([HErr NoObject; HErr NoObject; HOk None], 0).
Proof. vm_compute. reflexivity. Qed.
Example C86_case_destroyed_twice : demo_seen (demo ++ [Destroy 1]) = HErr NoObject.
Proof. vm_compute. reflexivity. Qed.
Example C86_case_short_argument : demo_seen [Make 0 2 unit3 [3]%Z [[0; 0; 0]; [1; 1; 1]]%Z true] = HErr OutOfBounds.
Proof. vm_compute. reflexivity. Qed.
Example C86_case_never_given : demo_seen [Raw 0 1; Copy 1 0] = HErr Uninitialised.
Proof. vm_compute. reflexivity. Qed.
Example C86_case_enlarge_empty : demo_seen [Default 0; Enlarge 0 2 2 2] = HErr Uninitialised /\ demo_seen [one_atom; Assign 0 0; Enlarge 0 2 2 2] = HErr DoubleFree.
Proof. vm_compute. split; reflexivity. Qed.
Example C86_case_inside : exists st p, run [one_atom] (start 1) = HOk st /\ seen st 0 = HOk (Some p) /\ p_origin p = [0; 0; 0]%Z /\ inside p.
Proof.
  do 2 eexists. split; [vm_compute; reflexivity|]. split; [vm_compute; reflexivity|]. split; [reflexivity|].
  intros z c [E|[]]. injection E as <- <-. exists 1%Z, 0%Z, 0%Z, 0%Z. split; [lia|reflexivity].
Qed.
