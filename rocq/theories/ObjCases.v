(** A supercell of three copies of a cell of two atoms, the second copy being the
    primitive one; the first atom has three neighbours, the second two. *)
From Verif Require Import ObjModel ObjSpec.
From Coq Require Import Lia.
Open Scope nat_scope.

Definition ex_places : list vec := [(0, 0, 0); (1, 0, 0); (2, 0, 0); (3, 0, 0); (4, 0, 0); (5, 0, 0)]%R.
Definition ex_obj : nlobj := mknl [[3; 1; 0]; [2; 4]] 2 1 ex_places [3; 14; 3; 14; 3; 14].

Lemma ex_obj_ok : nl_ok ex_obj.
Proof.
  unfold nl_ok; cbn. repeat split; [lia| |].
  - intros r b [<-|[<-|[]]] I; cbn in I; lia.
  - intros i I. destruct i as [|[|i]]; [reflexivity|reflexivity|lia].
Qed.
Lemma ex_room ca na nn : In ca [3; 14] -> In (na, nn) [(3, 2); (14, 3)] -> room ex_obj ca na nn.
Proof.
  intros [<-|[<-|[]]] [[= <- <-]|[[= <- <-]|[]]] i I; cbn in I; destruct I as [<-|[]]; cbn; lia.
Qed.
