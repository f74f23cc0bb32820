(** Memory of neighbour lists: the properties. *)
From Verif Require Import OwnModel OwnFinal LifeSpec OwnSpec.
Local Open Scope nat_scope.
Local Open Scope list_scope.

Section Numbers.
Variable lengths_of : printed -> list Z * list Z.
Variable extending : printed -> Z -> nat * nat * nat.
Variable bins_of : printed -> list Z -> nat * nat * nat.
Variable min_of : printed -> list Z.
Variable bin_of : bin_info -> list Z -> Z.
Variable found : bin_view -> nat -> list Z.
Variable arranged : bin_view -> nat -> list Z -> list Z.
Notation run := (nl_run lengths_of extending bins_of min_of bin_of found arranged).
Notation meaning_all := (nl_meaning_all lengths_of extending bins_of min_of bin_of found arranged).
Notation made_list := (nl_made lengths_of extending bins_of min_of bin_of found arranged).

(** ** C90 *)
(** Every program of constructions with a cutoff other than 0, copies, assignments and
    destructions, over any number of variables: it runs exactly when the lists it asks for exist;
    then every variable shows the list that neighbour lists without memory would have, and the
    memory in use is what the lists in the variables need and nothing more. *)
Theorem C90_programs l n : Forall with_cutoff l ->
  match meaning_all l (repeat None n) with
  | Some vs => exists s, run l (nl_start n) = HOk s /\ (forall x, nl_seen s x = nl_expected (nl_holds vs x)) /\ in_use (snd s) = nl_needed_all vs
  | None => exists e, run l (nl_start n) = HErr e
  end.
Proof. exact (nl_programs lengths_of extending bins_of min_of bin_of found arranged l n). Qed.

(** What happens to other variables never shows. *)
Theorem C90_independent l1 l2 n s1 s2 x : Forall with_cutoff (l1 ++ l2) -> run l1 (nl_start n) = HOk s1 -> run l2 s1 = HOk s2 ->
  Forall (fun c => nl_target c <> x) l2 -> nl_seen s2 x = nl_seen s1 x.
Proof. exact (nl_others_stay lengths_of extending bins_of min_of bin_of found arranged l1 l2 n s1 s2 x). Qed.

(** A copy shows what the original shows. *)
Theorem C90_copy l x y n s : Forall with_cutoff l -> run (l ++ [NCopy x y]) (nl_start n) = HOk s ->
  nl_seen s x = nl_seen s y /\ exists r, nl_seen s y = HOk r.
Proof. exact (nl_copy_same lengths_of extending bins_of min_of bin_of found arranged l x y n s). Qed.

(** So does the target of an assignment from another variable. *)
Theorem C90_assignment l x y n s : Forall with_cutoff l -> x <> y -> run (l ++ [NAssign x y]) (nl_start n) = HOk s ->
  nl_seen s x = nl_seen s y /\ exists r, nl_seen s y = HOk r.
Proof. exact (nl_assign_same lengths_of extending bins_of min_of bin_of found arranged l x y n s). Qed.

(** A list with atoms that is assigned to itself reads memory that was never written. *)
Theorem C90_self_assignment_breaks l x n s1 rc r : Forall with_cutoff l -> run l (nl_start n) = HOk s1 -> nl_seen s1 x = HOk (rc, Some r) ->
  run (l ++ [NAssign x x]) (nl_start n) = HErr Uninitialised.
Proof. exact (nl_assign_itself lengths_of extending bins_of min_of bin_of found arranged l x n s1 rc r). Qed.

(** When no variable shows atoms any more, all memory was given back. *)
Theorem C90_nothing_lost l n s : Forall with_cutoff l -> run l (nl_start n) = HOk s ->
  (forall x, nl_seen s x = HErr NoObject \/ nl_seen s x = HOk (0%Z, None)) -> in_use (snd s) = 0.
Proof. exact (nl_nothing_lost lengths_of extending bins_of min_of bin_of found arranged l n s). Qed.

(** A construction without atoms ends the program. *)
Theorem C90_no_atoms l x a n s : Forall with_cutoff l -> a_n a = 0 -> run l (nl_start n) = HOk s -> x < n -> nl_seen s x = HErr NoObject ->
  run (l ++ [NMake x a]) (nl_start n) = HErr Aborted.
Proof. intros Hw Ha. exact (nl_no_atoms lengths_of extending bins_of min_of bin_of found arranged l x a n Hw Ha s). Qed.

(** With cutoff 0 every construction that would succeed with atoms shows an empty list, and three
    blocks of memory stay in use after the list is destroyed. *)
Theorem C90_zero_cutoff_breaks a v : made (a_n a) (a_basis a) (a_numbers a) (a_coords a) (a_cart a) = Some (Full v) -> a_rcut a = 0%Z -> made_list a <> None ->
  exists s s', run [NMake 0 a] (nl_start 1) = HOk s /\ nl_seen s 0 = HOk (0%Z, None) /\ in_use (snd s) = 3 /\
    run [NMake 0 a; NDestroy 0] (nl_start 1) = HOk s' /\ (forall x, nl_seen s' x = HErr NoObject) /\ in_use (snd s') = 3.
Proof. exact (nl_zero_cutoff lengths_of extending bins_of min_of bin_of found arranged a v). Qed.
End Numbers.
Print Assumptions C90_programs.
Print Assumptions C90_independent.
Print Assumptions C90_copy.
Print Assumptions C90_assignment.
Print Assumptions C90_self_assignment_breaks.
Print Assumptions C90_nothing_lost.
Print Assumptions C90_no_atoms.
Print Assumptions C90_zero_cutoff_breaks.

(** Tests: a program with simple calculations that meets the hypotheses, and programs that fail. *)
Definition demo_run : list nl_command -> nl_state -> hres nl_state :=
  nl_run (fun p => (hd [] (p_basis p), [7; 8; 9]%Z)) (fun _ r => (Z.to_nat r, 3, 0)) (fun _ _ => (2, 1, 1)) (fun p => hd [] (map snd (p_sites p)))
    (fun _ c => (hd 0 c + 2) / 3)%Z (fun w i => [Z.of_nat i; hd 0 (w_heads w)]%Z) (fun _ _ l => rev l).
Definition demo_two (rcut : Z) (sort : bool) : arguments :=
  {| a_n := 2; a_basis := [[2; 0; 0]; [0; 3; 0]; [0; 0; 4]]%Z; a_numbers := [3; 8]%Z; a_coords := [[0; 0; 0]; [1; 1; 1]]%Z; a_cart := true;
     a_rcut := rcut; a_size := [1; 1; 1]%Z; a_pbc := (true, false, false); a_sort := sort |}.
Definition demo_program : list nl_command := [NMake 0 (demo_two 1 false); NCopy 1 0; NDefault 2; NAssign 2 1; NDestroy 1].
Definition demo_seen (l : list nl_command) : hres (list (hres nl_view) * nat) :=
  hbind (demo_run l (nl_start 3)) (fun s => HOk (map (nl_seen s) [0; 1; 2], in_use (snd s))).
Definition demo_view : bin_view :=
  {| w_structure := {| p_basis := [[6; 0; 0]; [0; 3; 0]; [0; 0; 4]]%Z; p_origin := [-2; 0; 0]%Z;
       p_sites := [(3, [-2; 0; 0]); (8, [-1; 1; 1]); (3, [0; 0; 0]); (8, [1; 1; 1]); (3, [2; 0; 0]); (8, [3; 1; 1])]%Z |};
     w_cells := {| prim := 2; lengths := ([2; 0; 0], [7; 8; 9])%Z; scaling := (3, 1, 1); cell_xyz := (1, 0, 0)%Z; cell_idx := 1 |};
     w_owned := [2; 3]%Z; w_rcut := 1; w_bins := {| bin_size := [1; 1; 1]%Z; pbc := (true, false, false); num_bin := (2, 1, 1); min_limit := [-2; 0; 0]%Z |};
     w_heads := [2; 5]%Z; w_nexts := [-1; 0; 1; -1; 3; 4]%Z |}.
Example C90_case_hypothesis : Forall with_cutoff demo_program.
Proof. repeat constructor; discriminate. Qed.
Example C90_case_demo : demo_seen demo_program =
  HOk ([HOk (1%Z, Some (demo_view, [[0; 2]; [1; 2]]%Z)); HErr NoObject; HOk (1%Z, Some (demo_view, [[0; 2]; [1; 2]]%Z))], 38).
Proof. vm_compute. reflexivity. Qed.
Example C90_case_sorted : demo_seen [NMake 0 (demo_two 1 true)] =
  HOk ([HOk (1%Z, Some (demo_view, [[2; 0]; [2; 1]]%Z)); HErr NoObject; HErr NoObject], 19).
Proof. vm_compute. reflexivity. Qed.
Example C90_case_released : demo_seen (demo_program ++ [NDestroy 0; NDefault 0; NAssign 2 0]) =
  HOk ([HOk (0%Z, None); HErr NoObject; HOk (0%Z, None)], 0).
Proof. vm_compute. reflexivity. Qed.
Example C90_case_to_itself : demo_seen (demo_program ++ [NAssign 2 2]) = HErr Uninitialised /\ demo_seen [NDefault 0; NAssign 0 0] = HOk ([HOk (0%Z, None); HErr NoObject; HErr NoObject], 0).
Proof. vm_compute. split; reflexivity. Qed.
Example C90_case_destroyed_twice : demo_seen (demo_program ++ [NDestroy 1]) = HErr NoObject.
Proof. vm_compute. reflexivity. Qed.
(** An atom outside all bins: with cutoff 2 the first of five cells begins at -4. *)
Example C90_case_no_bin : demo_seen [NMake 0 (demo_two 2 false)] = HErr OutOfBounds.
Proof. vm_compute. reflexivity. Qed.
Example C90_case_zero : demo_seen [NMake 0 (demo_two 0 false); NDestroy 0] = HOk ([HErr NoObject; HErr NoObject; HErr NoObject], 3).
Proof. vm_compute. reflexivity. Qed.
