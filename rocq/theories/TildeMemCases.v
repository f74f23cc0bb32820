(** Programs over [TildeR] used as examples. *)
From Verif Require Import HeapModel TildeMemModel TildeMemSpec.
Local Open Scope nat_scope.

(** Two atoms of species 3 and one of species 42 with their neighbours in a supercell of six atoms. *)
Definition small_list : nlist :=
  {| nl_rcut := 5; nl_numbers := [3; 3; 42; 3; 3; 42]%Z; nl_lists := [[1; 2; 5]; [0; 3; 4; 2]; [0; 1; 3]] |}.
Definition one_species : tcommand := TMake 0 small_list [3]%Z [42]%Z None 4.
Definition two_species : tcommand := TMake 0 small_list [3; 42]%Z [3; 42]%Z None 4.
Definition given_counts : tcommand := TMake 1 small_list [42]%Z [3; 42]%Z (Some [10; 20]%Z) 4.

Definition outcome (l : list tcommand) : hres (list (hres (option summary)) * nat) :=
  hbind (trun l (tstart 3)) (fun s => HOk (map (tseen s) [0; 1; 2], blocks_in_use (snd s))).

Lemma small_sound : sound_list small_list.
Proof. split; [cbn; lia|repeat constructor; cbn; lia]. Qed.
Lemma two_proper : Forall proper [two_species; given_counts; TAssign 1 0; TDefault 2; TAssign 2 1; TDestroy 0].
Proof. repeat constructor; try apply small_sound; try discriminate; cbn; lia. Qed.

(** Without neighbouring species the second assignment releases memory twice. *)
Lemma no_neighbours :
  trun [two_species; TMake 1 small_list [3]%Z [] None 4; TAssign 0 1; TAssign 0 1] (tstart 2) = HErr DoubleFree.
Proof. vm_compute. reflexivity. Qed.
(** A copy of an empty object loses memory. *)
Lemma empty_copy_loses : exists s, trun [TDefault 0; TCopy 1 0; TDestroy 0; TDestroy 1] (tstart 2) = HOk s /\
  (forall x, tseen s x = HErr NoObject) /\ blocks_in_use (snd s) = 4.
Proof.
  eexists. split; [vm_compute; reflexivity|]. split; [|reflexivity]. intros [|[|[|x]]]; reflexivity.
Qed.
