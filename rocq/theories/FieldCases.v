(** Cases for saved force field parameters: tensors are their shapes. *)
From Coq Require Import String Ascii.
From Verif Require Import Base DataModel DataText Arr FieldModel FieldSpec FieldProofs.
Local Open Scope string_scope.

(** Fewer fitting layers than embedding layers. *)
Lemma layers_lost {V} (shape : V -> list nat) checkpoint nE nF input es fs m1 m2 : NoDup (map fst checkpoint) -> (0 < nE)%nat -> (0 < nF)%nat -> (0 < m1)%nat -> (List.length fs < List.length es)%nat -> fs <> [] -> (exists front, es = app front [m1]) ->
  networks shape checkpoint "embedding_net" nE input es -> networks shape checkpoint "fitting_net" nF (m1 * m2) fs ->
  exists file, save_hdf5_file shape checkpoint nE (List.length es) nF (List.length fs) = Ok file /\
  get_hdf5_dict file "embedding_sizes" = Ok (Sizes es) /\
  (forall i j p, (List.length fs <= j)%nat -> get_hdf5_dict file (name_of "embedding_net" p i j) = Err KeyError).
Proof.
  intros Nd HE HF Hm Hl Hf Hes NE NF. destruct (saved shape checkpoint Nd nE nF input es fs m1 m2 HE HF Hm ltac:(lia) Hf Hes NE NF) as (file & E & Nf & H). exists file. split; [exact E|]. split; [apply H; auto 10|].
  intros i j p Hj. unfold get_hdf5_dict. destruct (lookup_total (rev file) (name_of "embedding_net" p i j)) as [Q|(d & Q & _)]; [exact Q|]. exfalso. apply H in Q. destruct Q as [(net & p' & i' & j' & v & Hn & Hj' & E' & _)|Q].
  - apply name_inj in E'; [destruct E' as (_ & _ & _ & E'); lia|left; reflexivity|destruct Hn as [[-> _]|[-> _]]; [left|right]; reflexivity].
  - assert (In (name_of "embedding_net" p i j) ["M1"; "M2"; "embedding_sizes"; "fitting_sizes"]) as I by (cbn [In]; intuition congruence). exact (name_other "embedding_net" p i j _ (or_introl eq_refl) I eq_refl).
Qed.

(** One embedding network and one fitting network. *)
Definition layer (net : string) (j a b : nat) (res : bool) : list (string * list nat) :=
  [(name_of net Weight 0 j, [a; b]); (name_of net Bias 0 j, [1; b])] ++ (if res then [(name_of net Resnet 0 j, [1; b])] else []).
Definition two_three : list (string * list nat) := (layer "embedding_net" 0 1 5 false ++ layer "embedding_net" 1 5 4 true ++ layer "fitting_net" 0 8 7 false ++ layer "fitting_net" 1 7 7 true ++ layer "fitting_net" 2 7 1 false)%list.
Definition three_two : list (string * list nat) := (layer "embedding_net" 0 1 5 false ++ layer "embedding_net" 1 5 5 true ++ layer "embedding_net" 2 5 4 false ++ layer "fitting_net" 0 8 7 false ++ layer "fitting_net" 1 7 1 false)%list.
Definition two_two : list (string * list nat) := (layer "embedding_net" 0 1 5 false ++ layer "embedding_net" 1 5 4 true ++ layer "fitting_net" 0 8 7 false ++ layer "fitting_net" 1 7 1 false)%list.

Ltac ins := unfold has; cbn; repeat (first [left; reflexivity | right]).
Ltac nets2 := intros i j s Hi Hj; assert (i = 0%nat) by lia; subst i;
  repeat (destruct j as [|j]; [cbn in Hj; injection Hj as <-; split; [eexists; split; [ins|reflexivity]|eexists; exists [1%nat]; split; [ins|reflexivity]]|]); destruct j; discriminate Hj.
Lemma two_two_emb : networks (fun s => s) two_two "embedding_net" 1 1 [5; 4]. Proof. nets2. Qed.
Lemma two_two_fit : networks (fun s => s) two_two "fitting_net" 1 (4 * 2) [7; 1]. Proof. nets2. Qed.
Lemma three_two_emb : networks (fun s => s) three_two "embedding_net" 1 1 [5; 5; 4]. Proof. nets2. Qed.
Lemma three_two_fit : networks (fun s => s) three_two "fitting_net" 1 (4 * 2) [7; 1]. Proof. nets2. Qed.
Lemma two_three_emb : networks (fun s => s) two_three "embedding_net" 1 1 [5; 4]. Proof. nets2. Qed.
Lemma two_three_fit : networks (fun s => s) two_three "fitting_net" 1 (4 * 2) [7; 7; 1]. Proof. nets2. Qed.
Ltac nd := cbn; repeat (constructor; [cbn; intuition discriminate|]); constructor.
Lemma two_two_nd : NoDup (map fst two_two). Proof. nd. Qed.
Lemma three_two_nd : NoDup (map fst three_two). Proof. nd. Qed.
Lemma two_three_nd : NoDup (map fst two_three). Proof. nd. Qed.

Lemma refuted : exists (checkpoint : list (string * list nat)) es fs, NoDup (map fst checkpoint) /\
  networks (fun s => s) checkpoint "embedding_net" 1 1 es /\ networks (fun s => s) checkpoint "fitting_net" 1 (4 * 2) fs /\ (exists front, es = app front [4%nat]) /\
  save_hdf5_file (fun s => s) checkpoint 1 (List.length es) 1 (List.length fs) = Err KeyError.
Proof.
  exists two_three, [5; 4], [7; 7; 1]. split; [exact two_three_nd|]. split; [exact two_three_emb|]. split; [exact two_three_fit|]. split; [exists [5]; reflexivity|]. vm_compute. reflexivity.
Qed.
