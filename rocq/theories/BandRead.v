(** Proofs for [BandProps]: reading a report. *)
From Coq Require Import QArith Qround Qabs Lqa.
From Verif Require Import Text TextProofs DataModel BandModel BandSpec BandProofs BandEdges BandFinal.
Open Scope nat_scope.
Open Scope list_scope.

Definition search_from (k : nat) (lines : list string) (aim : string) : list nat :=
  map fst (filter (fun p => contains aim (snd p)) (combine (seq k (List.length lines)) lines)).
Lemma search_app a b aim : forall k, search_from k (a ++ b) aim = search_from k a aim ++ search_from (k + List.length a) b aim.
Proof.
  unfold search_from. induction a as [|x a IH]; intros k; cbn [app List.length seq combine filter map]; [now rewrite Nat.add_0_r|].
  replace (k + S (List.length a)) with (S k + List.length a) by lia. cbn [snd]. destruct (contains aim x); cbn [map app]; now rewrite IH.
Qed.
Lemma search_none l aim : Forall (fun x => contains aim x = false) l -> forall k, search_from k l aim = [].
Proof. unfold search_from. induction 1 as [|x l H _ IH]; intros k; cbn; [reflexivity|]. rewrite H. apply IH. Qed.

Section Reading.
Variable int_of : string -> result nat.
Variable float_of : string -> result Q.
Variable strict_compare : bool.

Lemma number_ok lines aim n : states int_of lines aim n -> get_number int_of lines aim = Ok n.
Proof using.
  intros (a & l & b & ts & t & -> & A & L & S' & T). unfold get_number. change (search_aim (a ++ l :: b) aim) with (search_from 1 (a ++ l :: b) aim).
  rewrite search_app, (search_none a aim A). cbn [app]. unfold search_from at 1. cbn [List.length seq combine filter map snd]. rewrite L. cbn [map fst].
  unfold get. cbn [nth_error bind]. replace (1 + List.length a - 1) with (List.length a) by lia. rewrite nth_error_app2, Nat.sub_diag by lia. cbn [nth_error bind].
  unfold last_token. rewrite S', rev_app_distr. cbn. exact T.
Qed.

Definition values (p : part) : result (list Q) := mapM float_of (flat_map split_ws (p_numbers p)).

Lemma mapM_ext {A B} (f g : A -> result B) l : (forall x, In x l -> f x = g x) -> mapM f l = mapM g l.
Proof using. induction l as [|x l IH]; cbn; intros H; [reflexivity|]. rewrite (H x), IH; auto. Qed.
Lemma mapM_app {A B} (f : A -> result B) l1 l2 : mapM f (l1 ++ l2) = bind (mapM f l1) (fun a => bind (mapM f l2) (fun b => Ok (a ++ b))).
Proof using.
  induction l1 as [|x l1 IH]; cbn; [now destruct (mapM f l2)|]. destruct (f x); cbn; [|reflexivity]. rewrite IH. destruct (mapM f l1); cbn; [|reflexivity]. now destruct (mapM f l2).
Qed.

Lemma blocks_ok ps : forall pre n, Forall (fun p => is_header (p_header p) = true /\ Forall (fun l => is_header l = false) (p_numbers p ++ p_rest p) /\ List.length (p_numbers p) = n) ps ->
  mapM (fun idx => block float_of (pre ++ concat (map part_lines ps)) idx n) (search_from (1 + List.length pre) (concat (map part_lines ps)) "eigen energies, in eV") = mapM values ps.
Proof using.
  induction ps as [|p ps IH]; intros pre n H; cbn [map concat]; [reflexivity|]. inversion H as [|? ? [H1 [H2 H3]] H4]; subst.
  rewrite search_app. replace (search_from (1 + List.length pre) (part_lines p) "eigen energies, in eV") with [1 + List.length pre].
  2:{ unfold part_lines. change (p_header p :: p_numbers p ++ p_rest p) with ([p_header p] ++ (p_numbers p ++ p_rest p)). rewrite search_app, (search_none (p_numbers p ++ p_rest p)) by exact H2.
    rewrite app_nil_r. unfold search_from. cbn [List.length seq combine filter map snd]. unfold is_header in H1. now rewrite H1. }
  cbn [app mapM].
  assert (E : block float_of (pre ++ part_lines p ++ concat (map part_lines ps)) (1 + List.length pre) (List.length (p_numbers p)) = values p).
  { unfold block, values. f_equal. f_equal. unfold slice. generalize (concat (map part_lines ps)). intros X. unfold part_lines. replace (1 + List.length pre + List.length (p_numbers p) - (1 + List.length pre)) with (List.length (p_numbers p)) by lia.
    replace (1 + List.length pre) with (List.length (pre ++ [p_header p])) by (rewrite app_length; cbn; lia).
    replace (pre ++ (p_header p :: p_numbers p ++ p_rest p) ++ X) with ((pre ++ [p_header p]) ++ p_numbers p ++ p_rest p ++ X) by (cbn [app]; rewrite <- !app_assoc; reflexivity).
    rewrite skipn_app, skipn_all, Nat.sub_diag. cbn [skipn app]. rewrite firstn_app, firstn_all, Nat.sub_diag. cbn. apply app_nil_r. }
  rewrite E. destruct (values p); cbn [bind]; [|reflexivity]. specialize (IH (pre ++ part_lines p) _ H4). rewrite app_length, Nat.add_assoc, <- app_assoc in IH. now rewrite IH.
Qed.

Lemma np_stack_ok {F} (l : list (list F)) n : Forall (fun r => List.length r = n) l -> np_stack l = Ok l.
Proof using.
  destruct l as [|r l]; cbn; [reflexivity|]. intros H. inversion H; subst. replace (forallb _ l) with true; [reflexivity|]. symmetry. apply forallb_forall.
  intros x I. apply Nat.eqb_eq. rewrite Forall_forall in H3. now apply H3.
Qed.
Lemma mapM_forall {A B} (f : A -> result B) (g : A -> B) l : (forall x, In x l -> f x = Ok (g x)) -> mapM f l = Ok (map g l).
Proof using. induction l as [|x l IH]; cbn; intros H; [reflexivity|]. rewrite (H x), IH; auto. Qed.

Lemma reading pre ps nk nb vs :
  let lines := pre ++ concat (map part_lines ps) in
  states int_of lines "NUM_KPT" nk -> states int_of lines "NUM_BAND" nb -> well_formed pre ps ((nb + 4) / 5) ->
  mapM values ps = Ok vs -> Forall (fun r => List.length r = nb) vs ->
  get_eigen_energies int_of float_of strict_compare lines =
  bind (compare_shapes strict_compare (skipn nk vs)) (fun _ => Ok (mkTable (firstn nk vs) (skipn nk vs))).
Proof using.
  intros lines K B [W1 W2] V L. unfold get_eigen_energies. rewrite (number_ok _ _ _ K), (number_ok _ _ _ B). cbn [bind].
  change (search_aim lines "eigen energies, in eV") with (search_from 1 lines "eigen energies, in eV"). unfold lines at 2. rewrite search_app, (search_none pre) by exact W1. cbn [app].
  unfold lines. rewrite (blocks_ok ps pre ((nb + 4) / 5) W2), V. cbn [bind].
  rewrite (np_stack_ok (firstn nk vs) nb), (np_stack_ok (skipn nk vs) nb); [reflexivity| |]; rewrite <- (firstn_skipn nk vs) in L; apply Forall_app in L; tauto.
Qed.

(** One block per k-point and spin. *)
Lemma reading_ok pre ps nk nb vs :
  let lines := pre ++ concat (map part_lines ps) in
  states int_of lines "NUM_KPT" nk -> states int_of lines "NUM_BAND" nb -> well_formed pre ps ((nb + 4) / 5) ->
  mapM values ps = Ok vs -> Forall (fun r => List.length r = nb) vs -> List.length ps <= nk \/ 3 <= nb /\ strict_compare = false ->
  get_eigen_energies int_of float_of strict_compare lines = Ok (mkTable (firstn nk vs) (skipn nk vs)).
Proof using.
  intros lines K B W V L H. unfold lines. rewrite (reading pre ps nk nb vs K B W V L). replace (compare_shapes strict_compare (skipn nk vs)) with (Ok tt); [reflexivity|]. symmetry.
  unfold compare_shapes. destruct (skipn nk vs) as [|r rs] eqn:E; [reflexivity|]. destruct H as [H|[H ->]].
  - exfalso. assert (M : List.length vs = List.length ps). { clear - V. revert vs V. induction ps as [|p q IH]; cbn; intros vs V; [injection V as <-; reflexivity|]. destruct (values p); [|discriminate]. cbn in V. destruct (mapM values q); [|discriminate]. injection V as <-. cbn. f_equal. now apply IH. }
    rewrite skipn_all2 in E by lia. discriminate.
  - assert (I : In r vs). { rewrite <- (firstn_skipn nk vs), E. apply in_app_iff. right. now left. } rewrite Forall_forall in L. rewrite (L r I). destruct nb as [|[|[|nb]]]; [lia|lia|lia|reflexivity].
Qed.
Lemma reading_spins pre ps nk nb vs :
  let lines := pre ++ concat (map part_lines ps) in
  states int_of lines "NUM_KPT" nk -> states int_of lines "NUM_BAND" nb -> well_formed pre ps ((nb + 4) / 5) ->
  mapM values ps = Ok vs -> Forall (fun r => List.length r = nb) vs -> nk < List.length ps -> 0 < nb -> nb < 3 \/ strict_compare = true ->
  get_eigen_energies int_of float_of strict_compare lines = Err ValueError.
Proof using.
  intros lines K B W V L N P H. unfold lines. rewrite (reading pre ps nk nb vs K B W V L). unfold compare_shapes.
  assert (M : List.length vs = List.length ps). { clear - V. revert vs V. induction ps as [|p q IH]; cbn; intros vs V; [injection V as <-; reflexivity|]. destruct (values p); [|discriminate]. cbn in V. destruct (mapM values q); [|discriminate]. injection V as <-. cbn. f_equal. now apply IH. }
  destruct (skipn nk vs) as [|r rs] eqn:E. { apply (f_equal (@List.length _)) in E. rewrite skipn_length in E. cbn in E. lia. }
  assert (I : In r vs). { rewrite <- (firstn_skipn nk vs), E. apply in_app_iff. right. now left. } rewrite Forall_forall in L. rewrite (L r I).
  destruct nb as [|[|[|nb]]]; [lia|reflexivity|reflexivity|]. destruct H as [H| ->]; [lia|reflexivity].
Qed.
End Reading.
