(** A case: the two atoms and two images of C50, places for two neighbours of each species; the
    elements are numbered by their components. *)
From Verif Require Import HeapModel NestModel TildeModel TildeProofs ScratchModel ScratchSpec.
Open Scope nat_scope.

Definition demo : arguments :=
  {| a_inum := 2; a_ilist := [0; 1]; a_numneigh := [3; 2]; a_firstneigh := [[1; 2; 3]; [0; 3; 7]]; a_x := ex_x; a_types := ex_types;
     a_centres := [3; 14]; a_neighs := [3; 14]; a_nnl := [2; 2];
     a_value := fun _ l => Z.of_nat (10 + hd 0 l); a_deriv := fun _ l => Z.of_nat (100 + 10 * hd 0 l + hd 0 (tl l)) |}.
Lemma demo_sized : sized demo 2 4.
Proof. split; [|split; reflexivity]. split; [exact ex_lists_ok|]. split; [reflexivity|exact ex_enough]. Qed.
(** What is in the first row of the values, and which blocks are in use at the end. *)
Definition demo_row (h : heap) : hres (list Z) :=
  hbind (generate demo h) (fun '(b, h) => hfold (fun out c => hbind (read_at h b [0; c; 1]) (fun v => HOk (out ++ [v]))) (seq 0 4) []).
Lemma demo_values : demo_row [] = HOk [11; 0; 11; 11]%Z.
Proof. vm_compute. reflexivity. Qed.
Lemma demo_program : exists h, calls [DerivInto demo 2 4; Generate demo 2 4; Deriv demo 2 4; GenerateInto demo 2 4; DerivInto demo 2 4] [Some [Some 7%Z]] = HOk h /\
  length (in_use h) = 5 /\ hd None h = Some [Some 7%Z].
Proof. eexists. split; [vm_compute; reflexivity|]. split; vm_compute; reflexivity. Qed.
(** Released with one row too few. *)
Lemma demo_fewer : exists h, step [] (Generate demo 1 4) = HOk h /\ length (in_use h) = 5.
Proof. eexists. split; vm_compute; reflexivity. Qed.
