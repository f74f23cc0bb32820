(** The numbers in the names of sets and parts. *)
From Coq Require Import String.
From Verif Require Import Base ElementModel DataModel DataSpec DataText.

Lemma pad3_digits n : n < 1000 -> pad3 n = three_digits n.
Proof.
  assert (H : forallb (fun n => String.eqb (pad3 n) (three_digits n)) (seq 0 1000) = true) by (vm_compute; reflexivity).
  intros L. rewrite forallb_forall in H. apply String.eqb_eq, H. apply in_seq. lia.
Qed.
