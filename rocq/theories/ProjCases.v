(** Concrete tables, and the element whose name begins another heading. *)
From Coq Require Import String Ascii Reals Lra Lia.
From Verif Require Import Base Text TextProofs MovementModel NbMlffProofs ProjModel ProjSpec ProjProofs ProjBands.
Local Open Scope string_scope.
Local Open Scope list_scope.
Local Open Scope nat_scope.
Local Open Scope R_scope.

Lemma nodup_enumerates : enumerates (nodup string_dec).
Proof. intros l. split; [apply NoDup_nodup|intros x; apply nodup_In]. Qed.

Lemma pdos_own fl so lines f g : enumerates so -> open_dos fl lines = Ok f -> get_pdos_elements so f = Ok g ->
  exists els, names g = "Energy" :: els /\ NoDup els /\
  (forall e, In e els <-> exists n, In n (skipn 2 (names f)) /\ belongs n e) /\
  (separated els (names f) ->
   Forall2 (fun row row' => exists en vals, row' = en :: vals /\ entry_under "Energy" (names f) row en /\
     Forall2 (fun e v => sum_where (fun n => belongs n e) (names f) row v) els vals /\
     sum_where (fun n => exists e, In e els /\ belongs n e) (names f) row (add_up vals)) (body f) (body g)).
Proof.
  intros Hs O G. pose proof (open_dos_rect _ _ _ O) as Rf. destruct (pdos_spec so Hs f g Rf G) as (els & N & ND & I & F).
  exists els. split; [exact N|]. split; [exact ND|]. split; [exact I|]. intros Sep.
  unfold rect in Rf. rewrite Forall_forall in Rf. revert Rf F. generalize (body f), (body g). intros l l' Rf F.
  induction F as [|row row' l l' (en & vals & -> & E1 & E2) F IH]; constructor; [|apply IH; intros; apply Rf; right; assumption].
  exists en, vals. split; [reflexivity|]. split; [exact E1|]. pose proof (own_sums _ _ _ _ Sep E2) as E3. split; [exact E3|].
  apply conserved; [symmetry; apply Rf; left; reflexivity|exact ND|exact E3].
Qed.

Lemma pdos_general fl so lines f g : enumerates so -> open_dos fl lines = Ok f -> get_pdos_elements so f = Ok g ->
  exists els, names g = "Energy" :: els /\
  Forall2 (fun row row' => exists en vals, row' = en :: vals /\
    Forall2 (fun e v => exists own foreign, v = own + foreign /\ sum_where (fun n => belongs n e) (names f) row own /\
       sum_where (fun n => begins n e /\ ~ belongs n e) (names f) row foreign) els vals) (body f) (body g).
Proof.
  intros Hs O G. pose proof (open_dos_rect _ _ _ O) as Rf. destruct (pdos_spec so Hs f g Rf G) as (els & N & ND & I & F).
  exists els. split; [exact N|]. clear -F. induction F as [|row row' l l' (en & vals & -> & E1 & E2) F IH]; constructor; [|exact IH].
  exists en, vals. split; [reflexivity|]. clear -E2. induction E2 as [|e v es vs H F IH]; constructor; [|exact IH]. apply excess, H.
Qed.
Lemma pdos_defined fl so lines f : open_dos fl lines = Ok f ->
  (In "Energy" (names f) -> exists g, get_pdos_elements so f = Ok g) /\
  (~ In "Energy" (names f) -> get_pdos_elements so f = Err KeyError).
Proof. intros O. apply open_dos_rect in O. split; [apply pdos_total, O|apply pdos_no_energy]. Qed.

(** ** Potassium *)

Lemma sum_where_absent n ns row : length ns = length row -> ~ In n ns -> sum_where (fun m => m = n) ns row 0.
Proof.
  revert row; induction ns as [|m ns IH]; intros [|x row] L H; try discriminate; [constructor|].
  apply sum_no; [intros ->; apply H; left; reflexivity|]. apply IH; [cbn in L; lia|]. intros Hn. apply H. right. exact Hn.
Qed.
Lemma sum_where_single n ns row x : NoDup ns -> length ns = length row -> entry_under n ns row x -> sum_where (fun m => m = n) ns row x.
Proof.
  intros N L (a & b & u & v & -> & Ha & -> & Lu). revert u L Lu. induction a as [|m a IH]; intros [|y u] L Lu; try discriminate.
  - cbn [app] in *. enough (Q : sum_where (fun m => m = n) (n :: b) (x :: v) (x + 0)) by (rewrite Rplus_0_r in Q; exact Q). apply sum_yes; [reflexivity|]. inversion N; subst.
    apply sum_where_absent; [cbn in L; lia|assumption].
  - cbn [app]. apply sum_no; [intros ->; apply Ha; left; reflexivity|]. apply IH.
    + inversion N; assumption.
    + intros H. apply Ha. right. exact H.
    + cbn in L. cbn. lia.
    + cbn in Lu. lia.
Qed.
Lemma sum_where_exists (keep : string -> bool) ns row : length ns = length row -> exists s, sum_where (fun n => keep n = true) ns row s.
Proof. intros L. exists (masked_sum keep ns row). apply masked_sum_spec; [exact L|tauto]. Qed.
Lemma potassium ns row x v : NoDup ns -> length ns = length row -> entry_under "KPOINT" ns row x ->
  sum_where (fun n => begins n "K") ns row v ->
  exists w, v = x + w /\ sum_where (fun n => begins n "K" /\ n <> "KPOINT") ns row w.
Proof.
  intros N L E H.
  destruct (sum_where_exists (fun n => starts_with "K" n && negb (String.eqb n "KPOINT")) ns row L) as [w W].
  assert (W' : sum_where (fun n => begins n "K" /\ n <> "KPOINT") ns row w).
  { eapply sum_where_ext; [|exact W]. intros n _. cbv beta. rewrite Bool.andb_true_iff, Bool.negb_true_iff, String.eqb_neq, begins_iff. reflexivity. }
  exists w. split; [|exact W'].
  pose proof (sum_where_or _ _ _ _ _ _ (fun n _ H1 H2 => proj2 H2 H1) (sum_where_single _ _ _ _ N L E) W') as U.
  eapply sum_where_fun; [exact H|]. eapply sum_where_ext; [|exact U]. intros n _. cbv beta. split.
  - intros [->|[B _]]; [exists "POINT"; reflexivity|exact B].
  - intros B. destruct (string_dec n "KPOINT"); [left; assumption|right; split; assumption].
Qed.

Lemma fat_own fl so lines b f : enumerates so -> fat_open fl so lines = Ok b -> fat_frame fl lines = Ok f -> NoDup (names f) ->
  NoDup (elements b) /\ (forall e, In e (elements b) <-> exists n, In n (names f) /\ ~ In n head3 /\ belongs n e) /\
  exists parts, element_dfs fl b = Ok (head3 ++ elements b, parts) /\ length parts = num_bands b /\
  (separated (elements b) (names f) ->
   Forall2 (fun row row' => exists k e w vals, row' = k :: e :: w :: vals /\
     entry_under "KPOINT" (names f) row k /\ entry_under "ENERGY" (names f) row e /\ entry_under "weight_tot" (names f) row w /\
     Forall2 (fun el v => sum_where (fun n => belongs n el) (names f) row v) (elements b) vals) (body f) (concat parts)).
Proof.
  intros Hs O F N. destruct (fat_open_inv _ _ _ _ O) as (_ & _ & _ & f' & F' & El). rewrite F in F'. injection F' as <-.
  destruct (elements_spec fl so Hs _ _ N El) as (_ & Nd & I). split; [exact Nd|]. split; [exact I|].
  destruct (element_dfs_spec fl so Hs _ _ _ O F N) as (parts & E & L & S1). exists parts. split; [exact E|]. split; [exact L|]. intros Sep.
  clear -S1 Sep. induction S1 as [|row row' l l' (k & e & w & vals & -> & K1 & K2 & K3 & V) S1 IH]; constructor; [|exact IH].
  exists k, e, w, vals. repeat (split; [assumption || reflexivity|]). apply own_sums; assumption.
Qed.
Lemma fat_potassium fl so lines b f : enumerates so -> fat_open fl so lines = Ok b -> fat_frame fl lines = Ok f -> NoDup (names f) ->
  exists parts, element_dfs fl b = Ok (head3 ++ elements b, parts) /\
   Forall2 (fun row row' => exists k e w vals, row' = k :: e :: w :: vals /\
     Forall2 (fun el v => el = "K" -> exists rest, v = k + rest /\
        sum_where (fun n => begins n "K" /\ n <> "KPOINT") (names f) row rest) (elements b) vals) (body f) (concat parts).
Proof.
  intros Hs O F N. destruct (element_dfs_spec fl so Hs _ _ _ O F N) as (parts & E & L & S1). exists parts. split; [exact E|].
  pose proof (fat_rect _ _ _ F) as Rf. unfold rect in Rf. rewrite Forall_forall in Rf. clear -S1 N Rf. revert Rf S1. generalize (body f), (concat parts).
  intros l l' Rf S1. induction S1 as [|row row' l l' (k & e & w & vals & -> & K1 & K2 & K3 & V) S1 IH]; constructor; [|apply IH; intros; apply Rf; right; assumption].
  exists k, e, w, vals. split; [reflexivity|]. assert (Lr : length (names f) = length row) by (symmetry; apply Rf; left; reflexivity).
  clear -V N Lr K1. induction V as [|el v els vals H V IH]; constructor; [|exact IH]. intros ->. apply potassium; assumption.
Qed.

(** ** Files *)

Definition digit (s : string) : result R :=
  if String.eqb s "0" then Ok 0 else if String.eqb s "1" then Ok 1 else if String.eqb s "2" then Ok 2
  else if String.eqb s "3" then Ok 3 else Err ValueError.

Definition s_si_lines : list string := ["# Energy Total S-3S Si-3S"; "0 3 1 2"].
Lemma s_si : exists f g, open_dos digit s_si_lines = Ok f /\ get_pdos_elements (nodup string_dec) f = Ok g /\
  names f = ["Energy"; "Total"; "S-3S"; "Si-3S"] /\ body f = [[0; 3; 1; 2]] /\
  names g = ["Energy"; "S"; "Si"] /\ body g = [[0; 3; 2]].
Proof.
  eexists; eexists. split; [reflexivity|]. split; [reflexivity|]. repeat split.
  transitivity [[0; 1 + (2 + 0); 2 + 0]]; [reflexivity|]. repeat match goal with |- _ :: _ = _ :: _ => apply f_equal2 | |- @eq (list _) _ _ => reflexivity end; lra.
Qed.

Definition mos_lines : list string := ["# Energy Total Mo-4D Mo-5S S-3S"; "0 3 1 1 1"; "1 3 2 0 1"].
Lemma mos_case : exists f g, open_dos digit mos_lines = Ok f /\ get_pdos_elements (nodup string_dec) f = Ok g /\
  separated ["Mo"; "S"] (names f) /\ names g = ["Energy"; "Mo"; "S"] /\ body g = [[0; 2; 1]; [1; 2; 1]].
Proof.
  eexists; eexists. split; [reflexivity|]. split; [reflexivity|]. split.
  - intros e n He Hn B. apply begins_iff in B. apply belongs_iff. cbn in He, Hn.
    destruct He as [<-|[<-|[]]]; destruct Hn as [<-|[<-|[<-|[<-|[<-|[]]]]]]; cbn in B; try discriminate; reflexivity.
  - split; [reflexivity|]. transitivity [[0; 1 + (1 + 0); 1 + 0]; [1; 2 + (0 + 0); 1 + 0]]; [reflexivity|]. repeat match goal with |- _ :: _ = _ :: _ => apply f_equal2 | |- @eq (list _) _ _ => reflexivity end; lra.
Qed.

Definition two_bands : list bandtext :=
  [{| b_title := "BAND 1"; b_rows := ["0 1 1 0 1"; "1 2 1 1 0"]; b_blank := [""] |};
   {| b_title := "BAND 2"; b_rows := ["0 3 1 1 0"; "1 3 1 0 1"]; b_blank := [] |}].
Definition fat_head : string := "KPOINT ENERGY weight_tot S-3S Os-3S".
Lemma two_ok t : In t two_bands -> band_ok t /\ length (b_rows t) = 2%nat.
Proof.
  intros [<-|[<-|[]]]; split; try reflexivity; (split; [split; reflexivity|]); split; cbn [b_rows b_blank In].
  all: intros l H; repeat (destruct H as [<-|H]); try destruct H; (split; [split; reflexivity|]); try reflexivity; intros Q; discriminate Q.
Qed.
Lemma two_case : plain fat_head /\ ~ blank fat_head /\ (forall t, In t two_bands -> band_ok t /\ length (b_rows t) = 2%nat) /\
  exists b, fat_open digit (nodup string_dec) (file fat_head two_bands) = Ok b /\ num_bands b = 2%nat /\ num_kpoints b = 2%Z /\
  elements b = ["S"; "Os"] /\
  exists parts, orbital_dfs digit b "S-3s" = Ok (["KPOINT"; "ENERGY"; "weight_tot"; "S-3S"; "Os-3S"], parts).
Proof.
  split; [split; reflexivity|]. split; [intros Q; discriminate Q|]. split; [exact two_ok|].
  eexists. split; [reflexivity|]. repeat split. eexists. reflexivity.
Qed.
Lemma s_os : exists n m, occurs_in "S-3S" n /\ occurs_in "S-3S" m /\ belongs n "S" /\ belongs m "Os".
Proof.
  exists "S-3S", "Os-3S". split; [exists "", "S-3S", ""; split; reflexivity|]. split; [exists "O", "s-3S", ""; split; reflexivity|].
  split; apply belongs_iff; reflexivity.
Qed.

(** Bands of different length. *)
Definition uneven : list bandtext :=
  [{| b_title := "BAND 1"; b_rows := ["0 1"; "1 2"; "2 3"]; b_blank := [] |};
   {| b_title := "BAND 2"; b_rows := ["0 3"]; b_blank := [] |}].
Lemma uneven_mixed : exists head bands f parts, plain head /\ ~ blank head /\ (forall t, In t bands -> band_ok t) /\
  fat_frame digit (file head bands) = Ok f /\ array_split (body f) (length bands) = Ok parts /\
  map (fun t => length (b_rows t)) bands = [3; 1]%nat /\ map (@length (list R)) parts = [2; 2]%nat.
Proof.
  exists "KPOINT ENERGY", uneven. eexists; eexists. split; [split; reflexivity|]. split; [intros Q; discriminate Q|]. split.
  { intros t [<-|[<-|[]]]; (split; [split; reflexivity|]); split; cbn [b_rows b_blank In]; intros l H;
      repeat (destruct H as [<-|H]); try destruct H; (split; [split; reflexivity|]); intros Q; discriminate Q. }
  split; [reflexivity|]. split; [reflexivity|]. split; reflexivity.
Qed.

(** *** Missing columns *)
Lemma remove_absent x l : ~ In x l -> remove_name x l = Err ValueError.
Proof.
  intros N. unfold remove_name. replace (existsb (String.eqb x) l) with false; [reflexivity|]. symmetry. apply not_true_iff_false. intros H. apply existsb_exists in H. destruct H as (y & I & E). apply String.eqb_eq in E. subst y. contradiction.
Qed.
Lemma remove_present x l : In x l -> remove_name x l = Ok (drop_first x l).
Proof.
  intros I. unfold remove_name. replace (existsb (String.eqb x) l) with true; [reflexivity|]. symmetry. apply existsb_exists. exists x. split; [exact I|apply String.eqb_refl].
Qed.
Lemma was_there x y l : In y (drop_first x l) -> In y l.
Proof. induction l as [|z r IH]; cbn [drop_first]; [tauto|]. destruct (String.eqb x z); cbn [In]; tauto. Qed.
Lemma still_there x y l : y <> x -> In y l -> In y (drop_first x l).
Proof.
  intros N; induction l as [|z r IH]; cbn [drop_first]; [tauto|]. destruct (String.eqb_spec x z) as [->|Nz]; cbn [In]; [|tauto].
  intros [->|H]; [congruence|exact H].
Qed.
Lemma missing_column fl so lines f : fat_frame fl lines = Ok f -> (2 <= length (filter (fun l => contains "BAND" (upper l)) lines))%nat ->
  ~ In "ENERGY" (names f) \/ ~ In "weight_tot" (names f) -> fat_open fl so lines = Err ValueError.
Proof.
  intros Hf Hb Hm. unfold fat_open.
  assert (L : forall i k, length (locate_lines_from i k lines) = length (filter (fun l => contains k (upper l)) lines)).
  { intros i k. revert i. clear. induction lines as [|l r IH]; intros i; [reflexivity|]. cbn [locate_lines_from filter]. destruct (contains k (upper l)); cbn [length]; rewrite IH; reflexivity. }
  destruct (locate_lines_from 0 "BAND" lines) as [|a [|b r]] eqn:El; [| |].
  - specialize (L 0%nat "BAND"). rewrite El in L. cbn in L. rewrite <- L in Hb. lia.
  - specialize (L 0%nat "BAND"). rewrite El in L. cbn in L. rewrite <- L in Hb. lia.
  - cbn [get nth_error bind]. rewrite Hf. cbn [bind]. unfold fat_elements.
    assert (K : In "KPOINT" (names f)). { destruct (units fl lines f Hf) as (f0 & _ & _ & a' & b' & -> & _). apply in_or_app. right. left. reflexivity. }
    rewrite (remove_present _ _ K). cbn [bind].
    destruct (in_dec string_dec "ENERGY" (names f)) as [I|N].
    + assert (J : In "ENERGY" (drop_first "KPOINT" (names f))) by (apply (still_there "KPOINT" "ENERGY" (names f)); [intros X; discriminate X|exact I]). rewrite (remove_present _ _ J). cbn [bind]. destruct Hm as [N|N]; [contradiction|].
      rewrite (remove_absent "weight_tot"); [reflexivity|]. intros Q. apply N. apply was_there in Q. apply was_there in Q. exact Q.
    + rewrite (remove_absent "ENERGY"); [reflexivity|]. intros J. apply N. apply was_there in J. exact J.
Qed.
