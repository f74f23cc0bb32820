(** Proofs about the memory of neighbour lists: copies, assignments and destructions. *)
From Coq Require Import Permutation.
From Verif Require Import NestModel NestSpec NestProofs LifeModel LifeSpec LifeProofs LifeInv LifeMake LifeEnlarge LifeSteps OwnModel OwnSep OwnParts OwnVec.
Local Open Scope nat_scope.
Local Open Scope list_scope.

(** ** What the objects hold *)
Definition sc_content : Type := value * cell_info * list Z.
Definition sc_asn (s : supercell) (o : option sc_content) : list asn :=
  match o with None => [] | Some (v, i, l) => [stru (sc_structure s) v; arr (sc_owned s) l] end.
Definition sc_ok (s : supercell) (o : option sc_content) : Prop :=
  match o with
  | None => sc_num s = 0 /\ o_n (sc_structure s) = 0
  | Some (v, i, l) => sc_num s <> 0 /\ sc_info s = i /\ prim i = length l /\ 0 < length l
  end.
Record bl_content : Type := { k_cell : sc_content; k_rcut : Z; k_bins : bin_info; k_heads : list Z; k_nexts : list Z }.
Definition k_value (k : bl_content) : value := fst (fst (k_cell k)).
Definition k_owned (k : bl_content) : list Z := snd (k_cell k).
Definition bl_asn (b : bin_list) (o : option bl_content) : list asn :=
  match o with None => [] | Some k => [stru (sc_structure (bl_supercell b)) (k_value k); arr (sc_owned (bl_supercell b)) (k_owned k); arr (bl_heads b) (k_heads k); arr (bl_nexts b) (k_nexts k)] end.
(** All but the cutoff. *)
Definition bl_pre (b : bin_list) (k : bl_content) : Prop :=
  sc_ok (bl_supercell b) (Some (k_cell k)) /\ bl_rcut b = k_rcut k /\ bl_info b = k_bins k /\
  length (k_heads k) = scaling3 (num_bin (k_bins k)) /\ length (k_nexts k) = length (coords (k_value k)).
Definition bl_ok (b : bin_list) (o : option bl_content) : Prop :=
  match o with None => bl_rcut b = 0%Z /\ sc_ok (bl_supercell b) None | Some k => k_rcut k <> 0%Z /\ bl_pre b k end.
Definition nl_content : Type := bl_content * list (list Z).
Definition nl_asn (x : nblist) (o : option nl_content) : list asn :=
  match o with None => [] | Some (k, rows) => jag (nl_lists x) rows 0 :: bl_asn (nl_bins x) (Some k) end.
Definition nl_ok (x : nblist) (o : option nl_content) : Prop :=
  match o with
  | None => nl_num x = 0 /\ nl_rcut x = 0%Z /\ bl_ok (nl_bins x) None
  | Some (k, rows) => nl_num x = length rows /\ nl_num x <> 0 /\ nl_rcut x = k_rcut k /\ bl_ok (nl_bins x) (Some k)
  end.
Lemma sc_stable s o : Forall stable (sc_asn s o).
Proof. destruct o as [[[v i] l]|]; cbn [sc_asn]; stab. Qed.
Lemma bl_stable b o : Forall stable (bl_asn b o).
Proof. destruct o as [k|]; cbn [bl_asn]; stab. Qed.
Lemma nl_stable x o : Forall stable (nl_asn x o).
Proof. destruct o as [[k rows]|]; cbn [nl_asn]; [apply Forall_cons; [apply jag_stable|apply bl_stable]|constructor]. Qed.

(** ** Supercells *)
Lemma assign_supercell_spec this o r o' : sc_ok this o -> sc_ok r o' ->
  spec (assign_supercell this (Some r)) (sc_asn this o ++ sc_asn r o') (fun a => sc_ok a o') (fun a => sc_asn a o' ++ sc_asn r o').
Proof.
  intros Ht Hr h own S0. unfold assign_supercell. pose proof (now_start _ _ _ S0) as N0.
  assert (exists ov, sized_as (sc_structure this) ov /\ exists h1, (if sc_num this =? 0 then HOk h else free_array (sc_owned this) h) = HOk h1 /\
    now h own (structs (sc_structure this) ov ++ sc_asn r o') h1) as (ov & Hov & h1 & -> & N1).
  { destruct o as [[[v i] l]|]; cbn [sc_asn sc_ok app] in *.
    - destruct Ht as (Hn & _). apply Nat.eqb_neq in Hn. rewrite Hn. exists (Some v). split; [exact I|].
      destruct (now_act _ [arr (sc_owned this) l] [] (stru (sc_structure this) v :: sc_asn r o') _ _ _ _ ltac:(stab)
        ltac:(apply Forall_cons; [apply stru_stable|apply sc_stable]) (free_array_act _ _) N0 ltac:(apply perm_swap)) as (h1 & E1 & N1). eauto.
    - destruct Ht as (-> & En). exists None. split; [exact En|]. exists h. split; [reflexivity|exact N0]. }
  cbn [hbind]. destruct o' as [[[v' i'] l']|]; cbn [sc_asn sc_ok] in *.
  - destruct Hr as (Hn & Hi & Hp & Hl). pose proof Hn as Hn'. apply Nat.eqb_neq in Hn. rewrite Hn. cbn [option_map].
    destruct (now_spec _ (structs (sc_structure this) ov ++ structs (sc_structure r) (Some v')) _ _ [arr (sc_owned r) l'] _ _ _ _
      ltac:(apply Forall_app; split; apply structs_stable) ltac:(stab) (assign_structure_spec (sc_structure this) ov (sc_structure r) (Some v') Hov I) N1
      ltac:(rewrite <- app_assoc; apply Permutation_refl)) as (st & h2 & -> & _ & N2). cbn [hbind structs app] in *.
    rewrite Hi, Hp.
    destruct (now_spec _ [arr (sc_owned r) l'] _ _ [stru st v'; stru (sc_structure r) v'] _ _ _ _ ltac:(stab) ltac:(stab) (copy_array_spec (length l') (sc_owned r) l' eq_refl) N2 ltac:(perm))
      as (b & h3 & -> & _ & N3). cbn [hbind app] in *.
    assert (Permutation [arr b l'; arr (sc_owned r) l'; stru st v'; stru (sc_structure r) v'] [stru st v'; arr b l'; stru (sc_structure r) v'; arr (sc_owned r) l']) as P by perm.
    apply (now_perm _ _ _ _ _ N3) in P. destruct P as (new & C & S3). eexists _, h3, new. split; [reflexivity|]. split; [cbn; auto|]. split; [exact C|]. exact S3.
  - destruct Hr as (-> & _). cbn [Nat.eqb].
    destruct (now_spec _ (structs (sc_structure this) ov ++ structs no_structure None) _ _ [] _ _ _ _
      ltac:(apply Forall_app; split; apply structs_stable) ltac:(stab) (assign_structure_spec (sc_structure this) ov no_structure None Hov eq_refl) N1
      ltac:(rewrite app_nil_r; apply Permutation_refl)) as (st & h2 & -> & Hst & N2). cbn [hbind structs app] in *.
    destruct N2 as (new & C & S2). eexists _, h2, new. split; [reflexivity|]. split; [cbn; auto|]. auto.
Qed.
Lemma destroy_supercell_act s o : sc_ok s o -> act (destroy_supercell s) (sc_asn s o) [].
Proof.
  intros Hs h own S0. unfold destroy_supercell. pose proof (now_start _ _ _ S0) as N0. destruct o as [[[v i] l]|]; cbn [sc_asn sc_ok] in *.
  - destruct Hs as (Hn & _). apply Nat.eqb_neq in Hn. rewrite Hn.
    destruct (now_act _ [arr (sc_owned s) l] [] [stru (sc_structure s) v] _ _ _ _ ltac:(stab) ltac:(stab) (free_array_act _ _) N0 ltac:(perm)) as (h1 & -> & N1). cbn [hbind app] in *.
    destruct (now_act _ [stru (sc_structure s) v] [] [] _ _ _ _ ltac:(stab) ltac:(stab) (destroy_act _ _) N1 ltac:(perm)) as (h2 & -> & N2).
    destruct N2 as (new & C & S2). exists h2, new. auto.
  - destruct Hs as (-> & En). cbn [Nat.eqb hbind]. unfold destroy. rewrite En. cbn [Nat.eqb]. exists h, own. split; [reflexivity|]. split; [apply changes_refl|exact S0].
Qed.

(** ** Bin lists *)
Lemma bl_split b k : sc_asn (bl_supercell b) (Some (k_cell k)) = [stru (sc_structure (bl_supercell b)) (k_value k); arr (sc_owned (bl_supercell b)) (k_owned k)].
Proof. destruct k as [[[v i] l] rc bi hd nx]. reflexivity. Qed.
Lemma assign_bin_list_spec this o r o' : bl_ok this o -> bl_ok r o' ->
  spec (assign_bin_list this (Some r)) (bl_asn this o ++ bl_asn r o') (fun a => bl_ok a o') (fun a => bl_asn a o' ++ bl_asn r o').
Proof.
  intros Ht Hr h own S0. unfold assign_bin_list. pose proof (now_start _ _ _ S0) as N0.
  assert (exists os, sc_ok (bl_supercell this) os /\ exists h1, (if (bl_rcut this =? 0)%Z then HOk h else hbind (free_array (bl_heads this) h) (free_array (bl_nexts this))) = HOk h1 /\
    now h own (sc_asn (bl_supercell this) os ++ bl_asn r o') h1) as (os & Hos & h1 & -> & N1).
  { destruct o as [k|]; cbn [bl_ok] in *.
    - destruct Ht as (Hn & Hc & Er & _). rewrite Er. pose proof Hn as Hn'. apply Z.eqb_neq in Hn. rewrite Hn. exists (Some (k_cell k)). split; [exact Hc|].
      rewrite bl_split. cbn [bl_asn app] in *.
      destruct (now_act _ [arr (bl_heads this) (k_heads k)] []
        (stru (sc_structure (bl_supercell this)) (k_value k) :: arr (sc_owned (bl_supercell this)) (k_owned k) :: arr (bl_nexts this) (k_nexts k) :: bl_asn r o') _ _ _ _ ltac:(stab)
        ltac:(repeat apply Forall_cons; try apply bl_stable; stab) (free_array_act _ _) N0 ltac:(perm)) as (h1 & -> & N1). cbn [hbind app] in *.
      destruct (now_act _ [arr (bl_nexts this) (k_nexts k)] []
        (stru (sc_structure (bl_supercell this)) (k_value k) :: arr (sc_owned (bl_supercell this)) (k_owned k) :: bl_asn r o') _ _ _ _ ltac:(stab)
        ltac:(repeat apply Forall_cons; try apply bl_stable; stab) (free_array_act _ _) N1 ltac:(perm)) as (h2 & -> & N2). eauto.
    - destruct Ht as (-> & Hs). exists None. split; [exact Hs|]. exists h. split; [reflexivity|exact N0]. }
  cbn [hbind]. destruct o' as [k'|]; cbn [bl_ok] in *.
  - destruct Hr as (Hn & Hc & Er & Ei & Lh & Ln). rewrite Er. pose proof Hn as Hn'. apply Z.eqb_neq in Hn. rewrite Hn. cbn [option_map].
    destruct (now_spec _ (sc_asn (bl_supercell this) os ++ sc_asn (bl_supercell r) (Some (k_cell k'))) _ _ [arr (bl_heads r) (k_heads k'); arr (bl_nexts r) (k_nexts k')] _ _ _ _
      ltac:(apply Forall_app; split; apply sc_stable) ltac:(stab) (assign_supercell_spec (bl_supercell this) os (bl_supercell r) (Some (k_cell k')) Hos Hc) N1
      ltac:(rewrite <- app_assoc, bl_split; apply Permutation_refl)) as (sc & h2 & -> & Hsc & N2). cbn [hbind] in *.
    assert (sc_asn sc (Some (k_cell k')) = [stru (sc_structure sc) (k_value k'); arr (sc_owned sc) (k_owned k')]) as Esc by (destruct k' as [[[v i] l] rc bi hd nx]; reflexivity).
    rewrite bl_split, Esc in N2. cbn [app] in N2. rewrite Ei.
    destruct (now_spec _ [arr (bl_heads r) (k_heads k')] _ _ [stru (sc_structure sc) (k_value k'); arr (sc_owned sc) (k_owned k'); stru (sc_structure (bl_supercell r)) (k_value k');
        arr (sc_owned (bl_supercell r)) (k_owned k'); arr (bl_nexts r) (k_nexts k')] _ _ _ _ ltac:(stab) ltac:(stab)
        (copy_array_spec (scaling3 (num_bin (k_bins k'))) (bl_heads r) (k_heads k') Lh) N2 ltac:(perm)) as (heads & h3 & -> & _ & N3). cbn [hbind app] in *.
    destruct (now_fact N3 (sc_structure sc) (k_value k')) as (_ & En); [cbn; tauto|]. rewrite En.
    destruct (now_spec _ [arr (bl_nexts r) (k_nexts k')] _ _ [arr heads (k_heads k'); arr (bl_heads r) (k_heads k'); stru (sc_structure sc) (k_value k'); arr (sc_owned sc) (k_owned k');
        stru (sc_structure (bl_supercell r)) (k_value k'); arr (sc_owned (bl_supercell r)) (k_owned k')] _ _ _ _ ltac:(stab) ltac:(stab)
        (copy_array_spec (length (coords (k_value k'))) (bl_nexts r) (k_nexts k') Ln) N3 ltac:(perm)) as (nexts & h4 & -> & _ & N4). cbn [hbind app] in *.
    assert (now h own ([stru (sc_structure sc) (k_value k'); arr (sc_owned sc) (k_owned k'); arr heads (k_heads k'); arr nexts (k_nexts k')] ++ bl_asn r (Some k')) h4) as N5.
    { eapply now_perm; [exact N4|]. cbn [bl_asn]. apply Permutation_sym. perm. }
    destruct N5 as (new & C & S4). eexists _, h4, new. split; [reflexivity|]. split; [cbn; repeat split; auto; exact Hsc|]. split; [exact C|exact S4].
  - destruct Hr as (-> & _). cbn [Z.eqb].
    destruct (now_spec _ (sc_asn (bl_supercell this) os ++ sc_asn no_supercell None) _ _ [] _ _ _ _
      ltac:(apply Forall_app; split; apply sc_stable) ltac:(stab) (assign_supercell_spec (bl_supercell this) os no_supercell None Hos (conj eq_refl eq_refl)) N1
      ltac:(rewrite app_nil_r; apply Permutation_refl)) as (sc & h2 & -> & Hsc & N2). cbn [hbind sc_asn app] in *.
    destruct N2 as (new & C & S2). eexists _, h2, new. split; [reflexivity|]. split; [cbn; auto|]. auto.
Qed.
Lemma destroy_bin_list_act b o : bl_ok b o -> act (destroy_bin_list b) (bl_asn b o) [].
Proof.
  intros Hb h own S0. unfold destroy_bin_list. pose proof (now_start _ _ _ S0) as N0. destruct o as [k|]; cbn [bl_ok] in *.
  - destruct Hb as (Hn & Hc & Er & _). rewrite Er. apply Z.eqb_neq in Hn. rewrite Hn. cbn [bl_asn] in *.
    destruct (now_act _ [arr (bl_heads b) (k_heads k)] []
        [stru (sc_structure (bl_supercell b)) (k_value k); arr (sc_owned (bl_supercell b)) (k_owned k); arr (bl_nexts b) (k_nexts k)] _ _ _ _ ltac:(stab)
        ltac:(stab) (free_array_act _ _) N0 ltac:(perm)) as (h1 & -> & N1). cbn [hbind app] in *.
    destruct (now_act _ [arr (bl_nexts b) (k_nexts k)] []
        [stru (sc_structure (bl_supercell b)) (k_value k); arr (sc_owned (bl_supercell b)) (k_owned k)] _ _ _ _ ltac:(stab)
        ltac:(stab) (free_array_act _ _) N1 ltac:(perm)) as (h2 & -> & N2). cbn [hbind app] in *. rewrite <- bl_split in N2.
    destruct (now_act _ (sc_asn (bl_supercell b) (Some (k_cell k))) [] [] _ _ _ _ ltac:(apply sc_stable) ltac:(stab) (destroy_supercell_act _ _ Hc) N2
      ltac:(rewrite app_nil_r; apply Permutation_refl)) as (h3 & -> & N3). destruct N3 as (new & C & S3). exists h3, new. auto.
  - destruct Hb as (-> & Hs). cbn [Z.eqb hbind]. exact (destroy_supercell_act _ _ Hs h own S0).
Qed.

(** ** Neighbour lists *)
Lemma copy_nblist_spec r o : nl_ok r o -> spec (copy_nblist r) (nl_asn r o) (fun a => nl_ok a o) (fun a => nl_asn a o ++ nl_asn r o).
Proof.
  intros Hr h own S0. unfold copy_nblist. pose proof (now_start _ _ _ S0) as N0. destruct o as [[k rows]|]; cbn [nl_ok nl_asn] in *.
  - destruct Hr as (El & Hn & Erc & Hb). pose proof Hn as Hn'. apply Nat.eqb_neq in Hn. rewrite Hn.
    destruct (now_spec _ (bl_asn no_bin_list None ++ bl_asn (nl_bins r) (Some k)) _ _ [jag (nl_lists r) rows 0] _ _ _ _
      ltac:(apply Forall_app; split; apply bl_stable) ltac:(stab) (assign_bin_list_spec no_bin_list None (nl_bins r) (Some k) (conj eq_refl (conj eq_refl eq_refl)) Hb) N0
      ltac:(apply Permutation_sym, Permutation_cons_append)) as (b & h1 & -> & Hb1 & N1). cbn [hbind] in *. rewrite El.
    destruct (now_spec _ [jag (nl_lists r) rows 0] _ _ (bl_asn b (Some k) ++ bl_asn (nl_bins r) (Some k)) _ _ _ _ ltac:(stab) ltac:(apply Forall_app; split; apply bl_stable)
      (vec_copy_spec (length rows) (nl_lists r) rows eq_refl) N1 ltac:(apply Permutation_cons_append)) as (l & h2 & -> & _ & N2). cbn [hbind app] in *.
    assert (now h own ((jag l rows 0 :: bl_asn b (Some k)) ++ jag (nl_lists r) rows 0 :: bl_asn (nl_bins r) (Some k)) h2) as N3.
    { eapply now_perm; [exact N2|]. cbn [app]. apply perm_skip. apply Permutation_middle. }
    destruct N3 as (new & C & S3). eexists _, h2, new. split; [reflexivity|]. split; [cbn; repeat split; auto; lia || apply Hb1|]. split; [exact C|exact S3].
  - destruct Hr as (-> & Erc & Hb). cbn [Nat.eqb].
    destruct (now_spec _ (bl_asn no_bin_list None ++ bl_asn (nl_bins r) None) _ _ [] _ _ _ _
      ltac:(apply Forall_app; split; apply bl_stable) ltac:(stab) (assign_bin_list_spec no_bin_list None (nl_bins r) None (conj eq_refl (conj eq_refl eq_refl)) Hb) N0
      ltac:(apply Permutation_refl)) as (b & h1 & -> & Hb1 & N1). cbn [hbind bl_asn app] in *. destruct N1 as (new & C & S1).
    eexists _, h1, new. split; [reflexivity|]. split; [cbn; repeat split; auto; apply Hb1|]. auto.
Qed.
Lemma drop_lists x o : nl_ok x o -> act (fun h => if nl_num x =? 0 then HOk h else vec_delete (nl_num x) (nl_lists x) h) (nl_asn x o) (bl_asn (nl_bins x) (option_map fst o)).
Proof.
  intros Hx h own S0. pose proof (now_start _ _ _ S0) as N0. destruct o as [[k rows]|]; cbn [nl_ok nl_asn option_map fst] in *.
  - destruct Hx as (El & Hn & _). apply Nat.eqb_neq in Hn. rewrite Hn, El.
    destruct (now_act _ [jag (nl_lists x) rows 0] [] (bl_asn (nl_bins x) (Some k)) _ _ _ _ ltac:(stab) ltac:(apply bl_stable) (vec_delete_act (length rows) _ rows eq_refl) N0 (Permutation_refl _))
      as (h1 & -> & N1). destruct N1 as (new & C & S1). exists h1, new. auto.
  - destruct Hx as (-> & _). exists h, own. split; [reflexivity|]. split; [apply changes_refl|exact S0].
Qed.
Lemma nl_bl_ok x o : nl_ok x o -> bl_ok (nl_bins x) (option_map fst o).
Proof. destruct o as [[k rows]|]; cbn [nl_ok option_map fst]; tauto. Qed.
Lemma assign_nblist_spec this o r o' : nl_ok this o -> nl_ok r o' ->
  spec (assign_nblist this (Some r)) (nl_asn this o ++ nl_asn r o') (fun a => nl_ok a o') (fun a => nl_asn a o' ++ nl_asn r o').
Proof.
  intros Ht Hr h own S0. unfold assign_nblist. pose proof (now_start _ _ _ S0) as N0.
  destruct (now_act _ (nl_asn this o) _ (nl_asn r o') _ _ _ _ ltac:(apply nl_stable) ltac:(apply nl_stable) (drop_lists this o Ht) N0 (Permutation_refl _)) as (h1 & -> & N1).
  cbn [hbind option_map]. apply nl_bl_ok in Ht. destruct o' as [[k' rows']|]; cbn [nl_ok nl_asn] in *.
  - destruct Hr as (El & Hn & Erc & Hb). pose proof Hn as Hn'. apply Nat.eqb_neq in Hn. rewrite Hn.
    destruct (now_spec _ (bl_asn (nl_bins this) (option_map fst o) ++ bl_asn (nl_bins r) (Some k')) _ _ [jag (nl_lists r) rows' 0] _ _ _ _
      ltac:(apply Forall_app; split; apply bl_stable) ltac:(stab) (assign_bin_list_spec (nl_bins this) _ (nl_bins r) (Some k') Ht Hb) N1
      ltac:(rewrite <- app_assoc; apply Permutation_app_head; apply Permutation_sym, Permutation_cons_append)) as (b & h2 & -> & Hb1 & N2). cbn [hbind] in *. rewrite El.
    destruct (now_spec _ [jag (nl_lists r) rows' 0] _ _ (bl_asn b (Some k') ++ bl_asn (nl_bins r) (Some k')) _ _ _ _ ltac:(stab) ltac:(apply Forall_app; split; apply bl_stable)
      (vec_copy_spec (length rows') (nl_lists r) rows' eq_refl) N2 ltac:(apply Permutation_cons_append)) as (l & h3 & -> & _ & N3). cbn [hbind app] in *.
    assert (now h own ((jag l rows' 0 :: bl_asn b (Some k')) ++ jag (nl_lists r) rows' 0 :: bl_asn (nl_bins r) (Some k')) h3) as N4.
    { eapply now_perm; [exact N3|]. cbn [app]. apply perm_skip. apply Permutation_middle. }
    destruct N4 as (new & C & S3). eexists _, h3, new. split; [reflexivity|]. split; [cbn; repeat split; auto; lia || apply Hb1|]. split; [exact C|exact S3].
  - destruct Hr as (-> & Erc & Hb). cbn [Nat.eqb].
    destruct (now_spec _ (bl_asn (nl_bins this) (option_map fst o) ++ bl_asn (nl_bins r) None) _ _ [] _ _ _ _
      ltac:(apply Forall_app; split; apply bl_stable) ltac:(stab) (assign_bin_list_spec (nl_bins this) _ (nl_bins r) None Ht Hb) N1
      ltac:(rewrite app_nil_r; apply Permutation_refl)) as (b & h2 & -> & Hb1 & N2). cbn [hbind bl_asn app] in *. destruct N2 as (new & C & S1).
    eexists _, h2, new. split; [reflexivity|]. split; [cbn; repeat split; auto; apply Hb1|]. auto.
Qed.
Lemma destroy_nblist_act x o : nl_ok x o -> act (destroy_nblist x) (nl_asn x o) [].
Proof.
  intros Hx h own S0. unfold destroy_nblist. pose proof (now_start _ _ _ S0) as N0.
  destruct (now_act _ (nl_asn x o) _ [] _ _ _ _ ltac:(apply nl_stable) ltac:(stab) (drop_lists x o Hx) N0 ltac:(rewrite app_nil_r; apply Permutation_refl)) as (h1 & -> & N1). cbn [hbind].
  destruct (now_act _ (bl_asn (nl_bins x) (option_map fst o)) [] [] _ _ _ _ ltac:(apply bl_stable) ltac:(stab) (destroy_bin_list_act _ _ (nl_bl_ok _ _ Hx)) N1 ltac:(apply Permutation_refl)) as (h2 & -> & N2).
  destruct N2 as (new & C & S2). exists h2, new. auto.
Qed.

(** ** Reading *)
Definition view_of (k : bl_content) : bin_view :=
  {| w_structure := print_of (k_value k); w_cells := snd (fst (k_cell k)); w_owned := k_owned k; w_rcut := k_rcut k; w_bins := k_bins k; w_heads := k_heads k; w_nexts := k_nexts k |}.
Lemma read_bin_list_reads b k : bl_pre b k -> reads (read_bin_list b) (bl_asn b (Some k)) (view_of k).
Proof.
  intros (Hc & Er & Ei & Lh & Ln) h own S0. pose proof (now_start _ _ _ S0) as N0. destruct k as [[[v i] l] rc bi hd nx].
  unfold bl_asn, view_of, k_value, k_owned in *. cbn [k_cell k_rcut k_bins k_heads k_nexts fst snd sc_ok] in *. destruct Hc as (_ & Hi & Hp & _).
  unfold read_bin_list. set (st := sc_structure (bl_supercell b)) in *.
  rewrite (now_reads _ [stru st v] [arr (sc_owned (bl_supercell b)) l; arr (bl_heads b) hd; arr (bl_nexts b) nx] _ _ _ _ _ (shown_reads st v) N0 ltac:(perm)). cbn [hbind]. rewrite Hi, Hp.
  rewrite (now_reads _ [arr (sc_owned (bl_supercell b)) l] [stru st v; arr (bl_heads b) hd; arr (bl_nexts b) nx] _ _ _ _ _ (read_array_reads _ _ _ eq_refl) N0 ltac:(perm)). cbn [hbind].
  rewrite Ei, <- Lh.
  rewrite (now_reads _ [arr (bl_heads b) hd] [stru st v; arr (sc_owned (bl_supercell b)) l; arr (bl_nexts b) nx] _ _ _ _ _ (read_array_reads _ _ _ eq_refl) N0 ltac:(perm)). cbn [hbind].
  destruct (now_fact N0 st v) as (_ & ->); [now left|]. rewrite <- Ln.
  rewrite (now_reads _ [arr (bl_nexts b) nx] [stru st v; arr (sc_owned (bl_supercell b)) l; arr (bl_heads b) hd] _ _ _ _ _ (read_array_reads _ _ _ eq_refl) N0 ltac:(perm)). cbn [hbind].
  now rewrite Er.
Qed.
Definition nl_shown (o : option nl_content) : nl_view := match o with None => (0%Z, None) | Some (k, rows) => (k_rcut k, Some (view_of k, rows)) end.
Lemma read_nblist_reads x o : nl_ok x o -> reads (read_nblist x) (nl_asn x o) (nl_shown o).
Proof.
  intros Hx h own S0. pose proof (now_start _ _ _ S0) as N0. unfold read_nblist. destruct o as [[k rows]|]; cbn [nl_ok nl_asn nl_shown] in *.
  - destruct Hx as (El & Hn & Erc & _ & Hb). apply Nat.eqb_neq in Hn. rewrite Hn.
    rewrite (now_reads _ (bl_asn (nl_bins x) (Some k)) [jag (nl_lists x) rows 0] _ _ _ _ _ (read_bin_list_reads _ _ Hb) N0) by (apply Permutation_sym, Permutation_cons_append). cbn [hbind].
    assert (exists b, nl_lists x = Some b) as (b & Eb).
    { destruct N0 as (ow & _ & owns & F & _). inversion F as [|? ? ? ? J _]; subst. destruct J as (b & qs & Eb & _). eauto. }
    rewrite Eb in N0 |- *. cbn [deref]. rewrite El, (hmap_ok0 (vec_get h b) rows (length rows) eq_refl); [cbn [hbind]; now rewrite Erc|].
    intros i row Hrow. exact (now_reads _ [jag (Some b) rows 0] (bl_asn (nl_bins x) (Some k)) _ _ _ _ _ (vec_get_reads b rows 0 i row Hrow) N0 (Permutation_refl _)).
  - destruct Hx as (-> & -> & _). reflexivity.
Qed.

(** ** A list assigned to itself *)
Lemma copy_itself_bad n h : 0 < n -> copy_array n (fun b => Some b) h = HErr Uninitialised.
Proof.
  intros Hn. unfold copy_array. destruct (allocate_tree [n] false h ltac:(discriminate)) as (h' & -> & _ & _ & T). cbn [hbind].
  destruct n as [|n]; [lia|]. cbn [seq map assigns hfold]. cbn [deref].
  rewrite (read_spec [Datatypes.S n] h' (length h) _ _ [0] T) by (apply within_1; lia). reflexivity.
Qed.
Lemma assign_self_bad x k rows h own : nl_ok x (Some (k, rows)) -> sep (nl_asn x (Some (k, rows))) h own -> assign_nblist x None h = HErr Uninitialised.
Proof.
  intros Hx S0. unfold assign_nblist. pose proof (now_start _ _ _ S0) as N0.
  destruct (now_act _ (nl_asn x (Some (k, rows))) _ [] _ _ _ _ ltac:(apply nl_stable) ltac:(stab) (drop_lists x _ Hx) N0 ltac:(rewrite app_nil_r; apply Permutation_refl)) as (h1 & -> & N1). cbn [hbind option_map].
  apply nl_bl_ok in Hx. cbn [option_map fst bl_ok] in Hx. destruct Hx as (Hn & Hc & Er & _). unfold assign_bin_list. rewrite Er. apply Z.eqb_neq in Hn. rewrite Hn.
  set (b := nl_bins x) in *. cbn [option_map fst bl_asn app] in N1.
  destruct (now_act _ [arr (bl_heads b) (k_heads k)] []
      [stru (sc_structure (bl_supercell b)) (k_value k); arr (sc_owned (bl_supercell b)) (k_owned k); arr (bl_nexts b) (k_nexts k)] _ _ _ _ ltac:(stab)
      ltac:(stab) (free_array_act _ _) N1 ltac:(perm)) as (h2 & -> & N2). cbn [hbind app] in *.
  destruct (now_act _ [arr (bl_nexts b) (k_nexts k)] []
      [stru (sc_structure (bl_supercell b)) (k_value k); arr (sc_owned (bl_supercell b)) (k_owned k)] _ _ _ _ ltac:(stab)
      ltac:(stab) (free_array_act _ _) N2 ltac:(perm)) as (h3 & -> & N3). cbn [hbind app] in *.
  destruct k as [[[v i] l] rc bi hd nx]. unfold k_value, k_owned in *. cbn [k_cell fst snd sc_ok] in *. destruct Hc as (Hs & Hi & Hp & Hl).
  unfold assign_supercell. apply Nat.eqb_neq in Hs. rewrite Hs. set (sc := bl_supercell b) in *.
  destruct (now_act _ [arr (sc_owned sc) l] [] [stru (sc_structure sc) v] _ _ _ _ ltac:(stab) ltac:(stab) (free_array_act _ _) N3 ltac:(perm)) as (h4 & -> & N4). cbn [hbind app] in *.
  unfold assign_structure.
  destruct (now_act _ (structs (sc_structure sc) (Some v)) [] [] _ _ _ _ ltac:(apply structs_stable) ltac:(stab) (emptied_act (sc_structure sc) (Some v) I) N4 ltac:(perm)) as (h5 & -> & N5).
  cbn [hbind option_map with_n o_n Nat.eqb]. rewrite ?Er, ?Hn, ?Hs, ?Hi, ?Hp, copy_itself_bad by exact Hl. cbn [hbind]. reflexivity.
Qed.
Lemma assign_self_empty x h : nl_ok x None -> exists x', assign_nblist x None h = HOk (x', h) /\ nl_ok x' None.
Proof.
  intros (En & Erc & Er & Es & Eo). unfold assign_nblist. rewrite En. cbn [Nat.eqb hbind option_map]. unfold assign_bin_list. rewrite Er. cbn [Z.eqb hbind]. rewrite ?Er. cbn [Z.eqb].
  unfold assign_supercell. rewrite Es. cbn [Nat.eqb hbind no_supercell sc_num]. unfold assign_structure. rewrite Eo. cbn [Nat.eqb hbind no_structure o_n]. rewrite ?En. cbn [Nat.eqb].
  eexists. split; [reflexivity|]. cbn. auto.
Qed.
