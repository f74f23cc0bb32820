(** Concrete collections and data files for the examples in [DataProps]. *)
From Coq Require Import String.
From Verif Require Import Base ElementModel ElementProofs DataModel DataSpec DataText DataProofs DataParts DataMerge DataGroups.
Local Open Scope Z_scope.

Definition nz (x : Z) : bool := negb (x =? 0).

(** Two atoms; the numbers tell the frame. *)
Definition frame (z1 z2 k : Z) : @struct Z :=
  mkStruct [z1; z2] [k; 0; 0; 0; k; 0; 0; 0; k] [[k; 0; 0]; [0; k; 0]] [[k; 1; 2]; [3; 4; k]] [0; 0].
Definition three (z1 z2 : Z) : result (@coll Z) :=
  make [frame z1 z2 1; frame z1 z2 2; frame z1 z2 3] [10; 20; 30] [1; 2; 3] [9; 18; 27] [[1]; [2]; [3]].
Definition three_no_virial : result (@coll Z) :=
  make [frame 3 14 1; frame 3 14 2; frame 3 14 3] [10; 20; 30] [1; 2; 3] [9; 18; 27] [].

Ltac equal_rows := let x := fresh in let y := fresh in intros x y; cbn; intuition (subst; reflexivity).

Lemma three_consistent : consistent [frame 3 14 1; frame 3 14 2; frame 3 14 3] [10; 20; 30] [[1]; [2]; [3]].
Proof. repeat split; equal_rows. Qed.

Definition saved_sets (o : list (@entry Z) * result unit) : list (string * option (list (list Z))) :=
  map (fun d => (fst d, file "tot_energy.npy" (snd d))) (set_dirs (fst o)).

Lemma three_saved : exists c, three 3 14 = Ok c /\ saved_sets (to nz None c 2) = [("set.000", Some [[10]; [20]]); ("set.001", Some [[30]])]%string.
Proof. eexists. split; [reflexivity|]. vm_compute. reflexivity. Qed.

Lemma elements_lost : exists c c', three 3 14 = Ok c /\ three 11 17 = Ok c' /\ forall old s, texts (fst (to nz old c s)) = texts (fst (to nz old c' s)).
Proof.
  destruct (make_ok [frame 3 14 1; frame 3 14 2; frame 3 14 3] [10; 20; 30] [1; 2; 3] [9; 18; 27] [[1]; [2]; [3]]) as [c M]; [discriminate|].
  destruct (make_ok [frame 11 17 1; frame 11 17 2; frame 11 17 3] [10; 20; 30] [1; 2; 3] [9; 18; 27] [[1]; [2]; [3]]) as [c' M']; [discriminate|].
  exists c, c'. split; [exact M|]. split; [exact M'|]. intros old s.
  destruct (type_files nz _ _ _ _ _ _ _ _ old s M eq_refl) as (ts & P & ->); [discriminate|].
  destruct (type_files nz _ _ _ _ _ _ _ _ old s M' eq_refl) as (ts' & P' & ->); [discriminate|].
  assert (K : forall a b : Z, a <> b -> forall l, Forall2 (fun x t => nth_error [a; b] t = Some x) [a; b] l -> l = [0; 1]%nat).
  { intros a b N l Q. inversion Q as [|x t r r' H1 H2]; subst. inversion H2 as [|x t' r r'' H3 H4]; subst. inversion H4; subst.
    destruct t as [|[|t]]; cbn in H1; [|congruence|destruct t; discriminate]. destruct t' as [|[|t']]; cbn in H3; [congruence| |destruct t'; discriminate]. reflexivity. }
  apply (K 3 14) in P; [|discriminate]. apply (K 11 17) in P'; [|discriminate]. rewrite P, P'. reflexivity.
Qed.

Lemma selection_unsaved : exists c c', three_no_virial = Ok c /\ from_indices 0 c [2; 0; -2] = Selected c' /\
  map st_box (co_structs c') = map st_box [frame 3 14 3; frame 3 14 1; frame 3 14 2] /\ snd (to nz None c 2) = Ok tt /\ snd (to nz None c' 2) = Err ValueError.
Proof. eexists _, _. split; [reflexivity|]. split; [reflexivity|]. split; [reflexivity|]. split; reflexivity. Qed.

(** Data files: two with two H, one with one O; the last but one has two frames. *)
Definition h2 (k : Z) : @raw Z := mkRaw false false false
  [[[k; 0; 0; 0; k; 0; 0; 0; k]]; [[1; 1]]; [[k; 0; 0; 0; k; 0]]; [[k]]; [[0; 0; 0; 0; 0; 0]]].
Definition h2_two (k : Z) : @raw Z := mkRaw true false false
  [[[k; 0; 0; 0; k; 0; 0; 0; k]; [1; 2; 3; 4; 5; 6; 7; 8; 9]]; [[1; 1]; [1; 1]]; [[k; 0; 0; 0; k; 0]; [1; 0; 0; 0; 1; 0]]; [[k]; [k + 1]]; [[0; 0; 0; 0; 0; 0]; [0; 0; 0; 0; 0; 0]]; [[0; 0; 0; 0; 0; 0; 0; 0; 0]; [1; 1; 1; 1; 1; 1; 1; 1; 1]]].
Definition o1 (k : Z) : @raw Z := mkRaw false false false
  [[[k; 0; 0; 0; k; 0; 0; 0; k]]; [[8]]; [[k; 0; 0]]; [[k]]; [[0; 0; 0]]].
Definition id_an (x : Z) : Z := x.
Definition sample : list (@raw Z) := [h2 5; h2_two 6; o1 7].

Lemma sample_ok : forall m, In m sample -> shaped m /\ closed id_an m.
Proof.
  intros m [<-|[<-|[<-|[]]]]; (split; [|intros t a; cbn; intuition (subst; cbn in *; intuition (subst; unfold id_an in *; lia))]).
  - exists 2%nat. split; [cbn; lia|]. repeat constructor.
  - exists 2%nat. split; [cbn; lia|]. repeat constructor.
  - exists 1%nat. split; [cbn; lia|]. repeat constructor.
Qed.

Lemma sample_merged : match from_dir id_an sample with
  | Ok out => map (fun s => (is_formula s, is_etot s, is_types s, is_frames s, is_dict s)) out =
     [("H2O0", [[5]; [6]; [7]]%Z, [[0; 0]; [0; 0]; [0; 0]], 3, [("H", 0); ("O", 1)]); ("H0O1", [[7]]%Z, [[1]], 1, [("H", 0); ("O", 1)])]%string%nat
  | Err _ => False end.
Proof. vm_compute. reflexivity. Qed.

Lemma counts_wrong : exists files out s, (forall m, In m files -> shaped m /\ closed id_an m) /\ from_dir id_an files = Ok out /\ In s out /\
  is_formula s = "H2O0"%string /\ is_dict s = [("H", 0); ("O", 1)]%string%nat.
Proof.
  exists sample. destruct (from_dir id_an sample) as [out|] eqn:E; [|pose proof sample_merged as M; rewrite E in M; destruct M].
  pose proof sample_merged as M. rewrite E in M. destruct out as [|s out]; [discriminate|]. exists (s :: out), s. split; [exact sample_ok|]. split; [reflexivity|]. split; [now left|].
  cbn [map] in M. assert (Q := f_equal (hd (""%string, [], [], 0%nat, [])) M). cbn [hd] in Q. split; congruence.
Qed.

Definition late_o : @raw Z := mkRaw false false false
  [[[1; 0; 0; 0; 1; 0; 0; 0; 1]; [1; 0; 0; 0; 1; 0; 0; 0; 1]]; [[1; 1]; [1; 8]]; [[1; 0; 0; 0; 1; 0]; [1; 0; 0; 0; 1; 0]]; [[1]; [2]]; [[0; 0; 0; 0; 0; 0]; [0; 0; 0; 0; 0; 0]]].
Lemma late_fails : from_dir id_an [h2 5; late_o] = Err ValueError.
Proof. reflexivity. Qed.

Definition five : @infoset Z :=
  mkInfo [[1]; [2]; [3]; [4]; [5]] [[0]; [0]; [0]; [0]; [0]]%nat [[1]; [2]; [3]; [4]; [5]] [[1]; [2]; [3]; [4]; [5]] [[1]; [2]; [3]; [4]; [5]] [("H"%string, 1%nat)] "H1" 5 None None None.
Lemma five_whole : whole five.
Proof. cbv [whole]. cbn. repeat split. Qed.
Lemma five_parts : map (fun d => map (fun p => (fst p, file "etot.npy" (snd p))) (fd_parts d)) (fst (to_dir [] five (Some 2))) =
  [[("part.000", Some (Nums [[1]; [2]])); ("part.001", Some (Nums [[3]; [4]])); ("part.002", Some (Nums [[5]]))]]%string.
Proof. reflexivity. Qed.
