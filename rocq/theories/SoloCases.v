(** Concrete data files read and saved one at a time. *)
From Coq Require Import String.
From Verif Require Import Base ElementModel DataModel DataSpec DataMerge DataGroups DataCases SoloSpec SoloProofs.
Local Open Scope Z_scope.

(** One water molecule, the atoms in the order H, O, H. *)
Definition hoh : @raw Z := mkRaw false true false
  [[[9; 0; 0; 0; 9; 0; 0; 0; 9]]; [[1; 8; 1]]; [[0; 0; 0; 0; 0; 1; 0; 1; 1]]; [[4]]; [[0; 0; 0; 0; 0; 0; 0; 0; 0]]; [[1; 2; 3]]].
(** The same atoms, oxygen first. *)
Definition ohh : @raw Z := mkRaw false false false
  [[[9; 0; 0; 0; 9; 0; 0; 0; 9]]; [[8; 1; 1]]; [[0; 0; 1; 0; 0; 0; 0; 1; 1]]; [[4]]; [[0; 0; 0; 0; 0; 0; 0; 0; 0]]].

Lemma waters_ok : forall m, In m [hoh; ohh; o1 7; h2 5] -> shaped m /\ closed id_an m.
Proof.
  intros m [<-|[<-|[<-|[<-|[]]]]]; (split; [|intros t a; cbn; intuition (subst; cbn in *; intuition (subst; unfold id_an in *; lia))]).
  - exists 3%nat. split; [cbn; lia|]. repeat constructor.
  - exists 3%nat. split; [cbn; lia|]. repeat constructor.
  - exists 1%nat. split; [cbn; lia|]. repeat constructor.
  - exists 2%nat. split; [cbn; lia|]. repeat constructor.
Qed.

Lemma hoh_read : exists s, from_file id_an hoh None = Ok s /\ is_formula s = "H2O1"%string /\ is_dict s = [("H", 2); ("O", 1)]%string%nat /\
  is_types s = [[0; 1; 0]]%nat /\ is_eatom s = Some [[1; 2; 3]].
Proof. eexists. split; [vm_compute; reflexivity|]. repeat split; reflexivity. Qed.
Lemma ohh_name : exists s, from_file id_an ohh None = Ok s /\ is_formula s = "H2O1"%string.
Proof. eexists. split; [vm_compute; reflexivity|]. reflexivity. Qed.

(** Three different files are saved; in the directories of hydrogen and of oxygen the number 0
    stands for different elements, which only type_map.raw tells. *)
Lemma three_different : all_different id_an [hoh; o1 7; h2 5].
Proof. repeat (constructor; [repeat (constructor; [reflexivity|]); constructor|]). constructor. Qed.
Lemma three_saved : exists dirs, save_alone id_an [] [hoh; o1 7; h2 5] 1 = (dirs, Ok tt) /\
  map fd_name dirs = ["H2O1"; "O1"; "H2"]%string /\ map fd_types dirs = map each_line [["H"; "O"]; ["O"]; ["H"]]%string /\
  map (fun d => int_parts "types.npy" (fd_parts d)) dirs = [[Some [[0; 1; 0]]]; [Some [[0]]]; [Some [[0; 0]]]]%nat.
Proof. eexists. split; [vm_compute; reflexivity|]. repeat split; reflexivity. Qed.
Lemma water_twice : exists dirs, save_alone id_an [] [hoh; o1 7; ohh; h2 5] 1 = (dirs, Err FileExistsError) /\ map fd_name dirs = ["H2O1"; "O1"]%string.
Proof. eexists. split; [vm_compute; reflexivity|]. reflexivity. Qed.
Lemma late_alone : shaped late_o /\ Forall known (head_numbers id_an late_o) /\ ~ closed id_an late_o.
Proof.
  split; [|split].
  - exists 2%nat. split; [cbn; lia|]. repeat constructor.
  - repeat constructor; unfold known; cbn; unfold id_an; lia.
  - intros C. destruct (C [1; 8] 8) as [_ Q]; [cbn; auto|cbn; auto|]. cbn in Q. unfold id_an in Q. lia.
Qed.
