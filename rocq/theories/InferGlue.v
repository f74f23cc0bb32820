(** The input of a force field: what each column holds. *)
From Verif Require Import Arr Vec StructModel SiteIndexModel SeModel NeighModel StatsModel InferModel NeighSpec SeSpec SiteIndexSpec StructSpec InferSpec.
From Verif Require Import NeighProofs NeighCounts NeighPair NeighGlue NeighReal SeProofs SiteIndexProofs RDeriv InferProofs.
From Coq Require Import ZifyBool.
Open Scope nat_scope.

Section Join.
Variables (sup : list (Z * vec)) (key : list nat) (rests : list (list nat)).
Notation ch c := (chosen vzero sup key rests c).
Variables (zws cols : list (Z * nat)) (cs : list (Z * (list R * list R))).
Hypothesis Hcs : cs <> [].
Hypothesis Hcols : map fst cols = map fst cs.
Hypothesis Hincl : incl cols zws.
Hypothesis Nzws : NoDup (map fst zws).
Hypothesis Ncs : NoDup (map fst cs).

Lemma join_blocks {F} (d : list ((Z * Z) * list (list F))) (G : Z * (list R * list R) -> nat * list nat -> Z * nat -> list F) :
  NoDup (map fst d) -> (forall ce zw, In ce cs -> In zw zws -> In ((fst ce, fst zw), map (fun pr => G ce pr zw) (ch (fst ce))) d) ->
  (forall ce pr zw, In ce cs -> In zw zws -> In pr (ch (fst ce)) -> length (G ce pr zw) = snd zw) ->
  join (map fst cs) d = Ok (concat (map (fun ce => map (fun pr => concat (map (G ce pr) cols)) (ch (fst ce))) cs)).
Proof.
  intros Nd Hd Hl. unfold join. rewrite (mapM_map_ok fst _ (fun ce => map (fun pr => concat (map (G ce pr) cols)) (ch (fst ce)))).
  - cbn [bind]. apply (vcat_all _ (list_sum (map snd cols))); [apply map_nonempty, Hcs|]. intros p r Hp Hr. apply in_map_iff in Hp. destruct Hp as (ce & <- & Ic). apply in_map_iff in Hr. destruct Hr as (pr & <- & Ip).
    apply concat_widths. intros zw Hq. apply Hl; [exact Ic|apply Hincl, Hq|exact Ip].
  - intros ce Ic. rewrite <- Hcols, (mapM_map_ok fst _ (fun zw => map (fun pr => G ce pr zw) (ch (fst ce)))).
    + cbn [bind]. apply (hcat_maps (fun zw pr => G ce pr zw)). intros ->. apply Hcs. symmetry in Hcols. apply map_eq_nil in Hcols. exact Hcols.
    + intros zw Iz. apply dict_get_in; [exact Nd|]. apply Hd; [exact Ic|apply Hincl, Iz].
Qed.
End Join.

Section Norm.
Variables (sup : list (Z * vec)) (w : nat) (key : list nat) (rests : list (list nat)).
Hypothesis Hlen : length rests = length key.
Hypothesis Hkey : key <> [].
Hypothesis Hw : forall r, In r rests -> S (length r) <= w.
Notation table := (map (fun pr => canon vdist vzero 0%R sup w (fst pr) (fst pr :: snd pr)) (pairs_of key rests)).
Notation ch c := (chosen vzero sup key rests c).
Notation real c z := (real_of vzero sup c z (pairs_of key rests)).
Variables (rcut rs : R) (zws cols : list (Z * nat)) (cs : list (Z * (list R * list R))).
Hypothesis Hzws : zws <> [].
Hypothesis Hcs : cs <> [].
Hypothesis Hz : forall zw, In zw zws -> fst zw <> 0%Z.
Hypothesis Hfit : forall c zw, In c (map fst cs) -> In zw zws -> real c (fst zw) <= snd zw.
Hypothesis Hcols : map fst cols = map fst cs.
Hypothesis Hincl : incl cols zws.
Hypothesis Nzws : NoDup (map fst zws).
Hypothesis Ncs : NoDup (map fst cs).

Notation T ce pr := (filled sup (trow sup rcut rs (fst (snd ce)) (snd (snd ce))) (norm_row (fst (snd ce)) (snd (snd ce)) zero4) pr).
Notation Dv ce pr := (filled sup (drow sup rcut rs (snd (snd ce))) (norm_deriv (snd (snd ce)) zero43) pr).
Lemma normalize_ok argsort A B C s0 s1 s2 sites : structure_neighbors_v1 argsort A B C sites rcut s0 s1 s2 true = Ok table ->
  normalize argsort A B C rcut rs s0 s1 s2 (map (fun ce => fst (snd ce)) cs) (map (fun ce => snd (snd ce)) cs) (map fst cs) (map fst zws) (map snd zws) sites =
  Ok (concat (map (fun ce => map (fun pr => concat (map (T ce pr) cols)) (ch (fst ce))) cs),
      concat (map (fun ce => map (fun pr => concat (map (Dv ce pr) cols)) (ch (fst ce))) cs)).
Proof.
  intros Et. unfold normalize. rewrite Et. cbn [bind].
  set (ent := fun (ce : Z * (list R * list R)) (zw : Z * nat) => ((fst ce, fst zw), (map (fun pr => T ce pr zw) (ch (fst ce)), map (fun pr => Dv ce pr zw) (ch (fst ce))))).
  rewrite (mapM_enumerate _ fst (fun ce => map (ent ce) zws)).
  2: { intros i ce Hi. apply (mapM_enumerate _ fst (ent ce)). intros j zw Hj. apply entry_ok; assumption. }
  cbn [bind]. set (es := concat (map (fun ce => map (ent ce) zws) cs)).
  assert (Nk : NoDup (map fst (rev es))).
  { rewrite map_rev. apply NoDup_rev. unfold es. rewrite concat_map, map_map. rewrite (map_ext _ (fun ce => map (fun zw => (fst ce, fst zw)) zws)) by (intros ce; rewrite map_map; reflexivity). apply product_nodup; assumption. }
  assert (Ik : forall ce zw, In ce cs -> In zw zws -> In (ent ce zw) (rev es)).
  { intros ce zw Ic Iz. apply in_rev. rewrite rev_involutive. apply in_concat. exists (map (ent ce) zws). split; [apply in_map_iff; exists ce; split; [reflexivity|exact Ic]|apply in_map; exact Iz]. }
  rewrite (join_blocks sup key rests zws cols cs Hcs Hcols Hincl _ (fun ce pr zw => T ce pr zw)).
  - cbn [bind]. rewrite (join_blocks sup key rests zws cols cs Hcs Hcols Hincl _ (fun ce pr zw => Dv ce pr zw)); [reflexivity| | |].
    + rewrite map_map. exact Nk.
    + intros ce zw Ic Iz. apply in_map_iff. exists (ent ce zw). split; [reflexivity|apply Ik; assumption].
    + intros ce pr zw Ic Iz Ip. eapply filled_length; [exact Hlen|exact Ip|]. apply Hfit; [apply in_map; exact Ic|exact Iz].
  - rewrite map_map. exact Nk.
  - intros ce zw Ic Iz. apply in_map_iff. exists (ent ce zw). split; [reflexivity|apply Ik; assumption].
  - intros ce pr zw Ic Iz Ip. eapply filled_length; [exact Hlen|exact Ip|]. apply Hfit; [apply in_map; exact Ic|exact Iz].
Qed.
End Norm.
