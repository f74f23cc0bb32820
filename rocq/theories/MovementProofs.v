From Verif Require Import Text TextProofs MovementModel MovementSpec.

Definition sepb (l : string) : bool := contains dashes (upper l).

Lemma dashes_caseless : all_chars caseless dashes.
Proof. simpl. repeat split; exact caseless_dash. Qed.

Lemma sepb_spec l : sepb l = true <-> separator l.
Proof.
  unfold sepb. rewrite contains_upper by exact dashes_caseless.
  change dashes with (dash_run 38). apply contains_spec.
Qed.

Lemma sepb_false l : sepb l = false <-> ~ separator l.
Proof. rewrite <- sepb_spec. destruct (sepb l); split; congruence. Qed.

(** Grouping lines into frames. *)
Fixpoint cut (lines : list string) : list (list string) * list string :=
  match lines with
  | [] => ([], [])
  | l :: ls =>
      let '(fs, t) := cut ls in
      if sepb l then ([l] :: fs, t)
      else match fs with
           | [] => ([], l :: t)
           | f :: fs' => ((l :: f) :: fs', t)
           end
  end.

Definition frames_of (lines : list string) := fst (cut lines).
Definition tail_of (lines : list string) := snd (cut lines).

Lemma cut_concat lines : lines = concat (frames_of lines) ++ tail_of lines.
Proof.
  unfold frames_of, tail_of.
  induction lines as [|l ls IH]; [reflexivity|]. cbn [cut].
  destruct (cut ls) as [fs t]; cbn [fst snd] in *.
  destruct (sepb l); cbn [fst snd concat app]; [congruence|].
  destruct fs as [|f fs]; cbn [fst snd concat app] in *; congruence.
Qed.

Lemma cut_tail lines : Forall (fun l => ~ separator l) (tail_of lines).
Proof.
  unfold tail_of. induction lines as [|l ls IH]; [constructor|]. cbn [cut].
  destruct (cut ls) as [fs t]; cbn [fst snd] in *.
  destruct (sepb l) eqn:E; cbn [snd]; [exact IH|].
  destruct fs as [|f fs]; cbn [snd]; [|exact IH].
  constructor; [apply sepb_false; exact E|exact IH].
Qed.

Lemma cut_frames lines :
  Forall (fun f => exists body sep, f = body ++ [sep] /\ separator sep /\ Forall (fun l => ~ separator l) body)
         (frames_of lines).
Proof.
  unfold frames_of. induction lines as [|l ls IH]; [constructor|]. cbn [cut].
  destruct (cut ls) as [fs t]; cbn [fst snd] in *.
  destruct (sepb l) eqn:E; cbn [fst].
  - constructor; [|exact IH]. exists [], l. split; [reflexivity|]. split; [apply sepb_spec; exact E|constructor].
  - destruct fs as [|f fs]; cbn [fst]; [constructor|].
    inversion IH as [|f' fs' [body [sep [-> [Hs Hb]]]] Hr]; subst. constructor; [|exact Hr].
    exists (l :: body), sep. split; [reflexivity|]. split; [exact Hs|].
    constructor; [apply sepb_false; exact E|exact Hb].
Qed.

Lemma locate_gt content n lines r : In r (locate_lines_from n content lines) -> n < r.
Proof.
  revert n; induction lines as [|l ls IH]; intros n; cbn [locate_lines_from]; [contradiction|].
  destruct (contains content (upper l)); cbn [In]; intros H.
  - destruct H as [<-|H]; [lia|]. apply IH in H. lia.
  - apply IH in H. lia.
Qed.

Lemma differences_sizes n lines :
  differences n (locate_lines_from n dashes lines) = map (@List.length string) (frames_of lines).
Proof.
  unfold frames_of. revert n; induction lines as [|l ls IH]; intros n; [reflexivity|].
  cbn [locate_lines_from cut]. specialize (IH (S n)).
  pose proof (locate_gt dashes (S n) ls) as Hgt.
  destruct (cut ls) as [fs t]; cbn [fst snd] in *. fold (sepb l).
  destruct (sepb l); cbn [fst map differences].
  - rewrite IH. f_equal. simpl List.length. lia.
  - destruct (locate_lines_from (S n) dashes ls) as [|r rs]; destruct fs as [|f fs];
      cbn [differences map fst] in *; try discriminate; [reflexivity|].
    injection IH as H1 H2. rewrite H2. f_equal. specialize (Hgt r (or_introl eq_refl)). cbn [List.length]. lia.
Qed.

Lemma get_chunksizes_spec file :
  get_chunksizes file =
    match map (@List.length string) (frames_of (file_lines file)) with
    | [] => Err IndexError
    | sizes => Ok sizes
    end.
Proof.
  unfold get_chunksizes, locate_lines. rewrite <- (differences_sizes 0 (file_lines file)).
  destruct (locate_lines_from 0 dashes (file_lines file)) as [|r rs]; [reflexivity|].
  cbn [differences]. rewrite Nat.sub_0_r. reflexivity.
Qed.

Lemma frames_empty_iff lines : frames_of lines = [] <-> ~ Exists separator lines.
Proof.
  unfold frames_of. induction lines as [|l ls IH].
  - split; [intros _ H; inversion H | reflexivity].
  - cbn [cut]. destruct (cut ls) as [fs t]; cbn [fst] in *.
    destruct (sepb l) eqn:E; cbn [fst].
    + split; [discriminate|]. intros H. exfalso. apply H. left. apply sepb_spec. exact E.
    + destruct fs as [|f fs]; cbn [fst].
      * split; [|reflexivity]. intros _ H. inversion H; subst.
        -- apply sepb_false in E. contradiction.
        -- apply (proj1 IH eq_refl). assumption.
      * split; [discriminate|]. intros H. exfalso. 
        assert (~ Exists separator ls) as Hn by (intros Hx; apply H; right; exact Hx).
        apply IH in Hn. discriminate.
Qed.

Lemma read_chunks_app fs t :
  read_chunks (map (@List.length string) fs) (concat fs ++ t) = map concat_str fs.
Proof.
  induction fs as [|f fs IH]; [reflexivity|].
  cbn [map read_chunks concat]. rewrite <- app_assoc.
  rewrite firstn_app, firstn_all, Nat.sub_diag, firstn_O, app_nil_r.
  rewrite skipn_app, skipn_all, Nat.sub_diag, skipn_O. cbn [app]. rewrite IH. reflexivity.
Qed.

Lemma frame_loop_slice lines : forall i a b acc, i <= a ->
  frame_loop i lines a b acc = acc +++ concat_str (slice (a - i) (b - i) lines).
Proof.
  unfold slice.
  assert (Hin : forall lines i a b acc, a <= i ->
     frame_loop i lines a b acc = acc +++ concat_str (firstn (b - i) lines)).
  { clear. induction lines as [|l ls IH]; intros i a b acc Hi; cbn [frame_loop].
    - rewrite firstn_nil. symmetry. apply append_empty_r.
    - destruct (Nat.leb_spec a i); [|lia]. destruct (Nat.ltb_spec i b); cbn [andb].
      + rewrite IH by lia. replace (b - i) with (S (b - S i)) by lia.
        cbn [firstn concat_str]. apply append_assoc.
      + destruct (Nat.leb_spec b i); [|lia]. replace (b - i) with 0 by lia.
        symmetry. apply append_empty_r. }
  induction lines as [|l ls IH]; intros i a b acc Hi.
  - cbn [frame_loop]. rewrite skipn_nil, firstn_nil. symmetry. apply append_empty_r.
  - destruct (Nat.eq_dec i a) as [->|Hne].
    + rewrite Hin by lia. rewrite Nat.sub_diag, Nat.sub_0_r. reflexivity.
    + cbn [frame_loop]. destruct (Nat.leb_spec a i); [lia|]. cbn [andb].
      destruct (Nat.leb_spec b i).
      * replace (b - i - (a - i)) with 0 by lia. symmetry. apply append_empty_r.
      * rewrite IH by lia. replace (a - i) with (S (a - S i)) by lia. cbn [skipn].
        replace (b - S i - (a - S i)) with (b - i - S (a - S i)) by lia. reflexivity.
Qed.

Fixpoint sum (l : list nat) : nat := match l with [] => 0 | x :: xs => x + sum xs end.

Lemma cumsum_nth l : forall acc k, k < List.length l ->
  nth_error (cumsum_from acc l) k = Some (acc + sum (firstn (S k) l)).
Proof.
  induction l as [|x l IH]; intros acc k Hk; [simpl in Hk; lia|].
  destruct k as [|k]; cbn [cumsum_from nth_error firstn sum].
  - f_equal. lia.
  - rewrite IH by (simpl in Hk; lia). f_equal. cbn [firstn sum]. lia.
Qed.

Lemma cumsum_length l acc : List.length (cumsum_from acc l) = List.length l.
Proof. revert acc; induction l as [|x l IH]; intros acc; cbn; auto. Qed.

Lemma slices_nth sizes k : k <= List.length sizes ->
  nth_error (get_chunkslices sizes) k = Some (sum (firstn k sizes)).
Proof.
  intros Hk. unfold get_chunkslices. rewrite cumsum_nth by (simpl; lia). reflexivity.
Qed.

Lemma sum_lengths (fs : list (list string)) k :
  sum (firstn k (map (@List.length string) fs)) = List.length (concat (firstn k fs)).
Proof.
  revert k; induction fs as [|f fs IH]; intros [|k]; cbn; auto. rewrite app_length, IH. reflexivity.
Qed.

Lemma slice_frames (fs : list (list string)) t k f : nth_error fs k = Some f ->
  slice (List.length (concat (firstn k fs))) (List.length (concat (firstn (S k) fs))) (concat fs ++ t) = f.
Proof.
  unfold slice. revert k; induction fs as [|g fs IH]; intros [|k] H; try discriminate.
  - cbn in H. injection H as ->. cbn. rewrite app_nil_r, Nat.sub_0_r, <- app_assoc.
    rewrite firstn_app, firstn_all, Nat.sub_diag, firstn_O. apply app_nil_r.
  - cbn [nth_error] in H. specialize (IH k H).
    rewrite (firstn_cons (S k) g fs), (firstn_cons k g fs). cbn [concat]. rewrite !app_length.
    rewrite <- app_assoc. rewrite skipn_app. rewrite skipn_all2 by lia. cbn [app].
    replace (List.length g + List.length (concat (firstn k fs)) - List.length g) with (List.length (concat (firstn k fs))) by lia.
    replace (List.length g + List.length (concat (firstn (S k) fs)) - (List.length g + List.length (concat (firstn k fs))))
      with (List.length (concat (firstn (S k) fs)) - List.length (concat (firstn k fs))) by lia.
    exact IH.
Qed.

Lemma mv_open_spec file :
  mv_open file =
    match frames_of (file_lines file) with
    | [] => Err IndexError
    | fs => Ok {| mv_file := file; mv_sizes := map (@List.length string) fs;
                  mv_slices := get_chunkslices (map (@List.length string) fs) |}
    end.
Proof.
  unfold mv_open. rewrite get_chunksizes_spec. destruct (frames_of (file_lines file)); reflexivity.
Qed.

(** Every frame accessor in terms of the grouping. *)
Lemma get_frame_str_spec file m k : mv_open file = Ok m ->
  get_frame_str m k =
    match nth_error (frames_of (file_lines file)) k with
    | Some f => Ok (concat_str f)
    | None => Err IndexError
    end.
Proof.
  rewrite mv_open_spec. pose proof (cut_concat (file_lines file)) as Hc.
  destruct (frames_of (file_lines file)) as [|f0 fs0] eqn:Efs; [discriminate|].
  cbv zeta. match goal with |- Ok ?a = Ok _ -> _ => intros Hm; assert (m = a) as -> by congruence; clear Hm end.
  assert (Hstep : forall sz sl, file_lines file <> [] ->
    get_frame_str {| mv_file := file; mv_sizes := sz; mv_slices := sl |} k =
    bind (get sl k) (fun a => bind (get sl (S k)) (fun b => Ok (frame_loop 0 (file_lines file) a b "")))).
  { intros sz sl Hl. unfold get_frame_str; cbn [mv_file mv_slices].
    destruct (file_lines file); [congruence|reflexivity]. }
  assert (Hne : file_lines file <> []).
  { intros H0. unfold frames_of in Efs. rewrite H0 in Efs. discriminate. }
  rewrite Hstep by exact Hne. clear Hstep Efs.
  set (fs := f0 :: fs0) in *.
  set (sizes := map (@List.length string) fs).
  assert (Hlen : List.length sizes = List.length fs) by (unfold sizes; apply map_length).
  unfold get. destruct (nth_error fs k) as [f|] eqn:Ek.
  - assert (Hk : k < List.length fs) by (apply nth_error_Some; congruence).
    rewrite (slices_nth sizes k) by lia. rewrite (slices_nth sizes (S k)) by lia. cbn [bind].
    rewrite frame_loop_slice by lia. rewrite !Nat.sub_0_r.
    unfold sizes. rewrite !sum_lengths. rewrite Hc at 1.
    rewrite (slice_frames fs (tail_of (file_lines file)) k f Ek). reflexivity.
  - apply nth_error_None in Ek.
    assert (Hk2 : nth_error (get_chunkslices sizes) (S k) = None).
    { apply nth_error_None. unfold get_chunkslices. rewrite cumsum_length. change (List.length (0 :: sizes)) with (S (List.length sizes)). lia. }
    destruct (nth_error (get_chunkslices sizes) k); cbn [bind]; rewrite ?Hk2; reflexivity.
Qed.

Lemma read_sequential_spec file m : mv_open file = Ok m ->
  read_sequential m = map concat_str (frames_of (file_lines file)).
Proof.
  rewrite mv_open_spec. pose proof (cut_concat (file_lines file)) as Hc.
  destruct (frames_of (file_lines file)) as [|f0 fs0] eqn:Efs; [discriminate|].
  intros [= <-]. unfold read_sequential; cbn [mv_file mv_sizes].
  rewrite Hc at 1. exact (read_chunks_app (f0 :: fs0) _).
Qed.

Lemma num_frames_spec file m : mv_open file = Ok m ->
  num_frames m = List.length (frames_of (file_lines file)).
Proof.
  rewrite mv_open_spec. destruct (frames_of (file_lines file)) as [|f0 fs0]; [discriminate|].
  intros [= <-]. unfold num_frames; cbn [mv_sizes]. exact (map_length _ (f0 :: fs0)).
Qed.

Lemma mapM_all {A B} (f : A -> result B) l g :
  (forall x, In x l -> f x = Ok (g x)) -> mapM f l = Ok (map g l).
Proof.
  induction l as [|x l IH]; intros H; cbn [mapM map]; [reflexivity|].
  rewrite H by (left; reflexivity). cbn [bind]. rewrite IH by (intros y Hy; apply H; right; exact Hy). reflexivity.
Qed.

Lemma map_nth_seq {A B} (g : A -> B) (d : B) l :
  map (fun k => match nth_error l k with Some a => g a | None => d end) (seq 0 (List.length l)) = map g l.
Proof.
  induction l as [|x l IH]; [reflexivity|]. cbn [List.length seq map nth_error]. f_equal.
  rewrite <- seq_shift, map_map. exact IH.
Qed.

Lemma all_frames_spec file m : mv_open file = Ok m ->
  mapM (get_frame_str m) (seq 0 (num_frames m)) = Ok (map concat_str (frames_of (file_lines file))).
Proof.
  intros Hm. rewrite (num_frames_spec file m Hm).
  rewrite (mapM_all _ _ (fun k => match nth_error (frames_of (file_lines file)) k with
                                  | Some f => concat_str f | None => "" end)).
  - rewrite map_nth_seq. reflexivity.
  - intros k Hk. apply in_seq in Hk. rewrite (get_frame_str_spec file m k Hm).
    destruct (nth_error (frames_of (file_lines file)) k) eqn:E; [reflexivity|].
    apply nth_error_None in E. lia.
Qed.

Lemma wf_frames ls : wf_lines ls -> Forall wf_lines (frames_of ls) /\ wf_lines (tail_of ls).
Proof.
  intros H. rewrite (cut_concat ls) in H. split; [|apply wf_lines_app_r in H; exact H].
  apply wf_lines_app_l in H. induction (frames_of ls) as [|f fs IH]; [constructor|].
  cbn [concat] in H. constructor; [apply wf_lines_app_l in H; exact H|].
  apply IH. apply wf_lines_app_r in H. exact H.
Qed.

Lemma frames_cut file : cut_into file (map concat_str (frames_of (file_lines file))) (concat_str (tail_of (file_lines file))).
Proof.
  destruct (wf_frames (file_lines file) (wf_file_lines file)) as [Hf Ht]. split; [|split; [|split]].
  - rewrite <- concat_str_concat, <- concat_str_app, <- cut_concat. symmetry. apply concat_file_lines.
  - rewrite file_lines_concat by exact Ht. rewrite flat_map_concat_map, map_map.
    rewrite (map_ext_in _ (fun f => f)); [rewrite map_id; apply cut_concat|].
    intros f Hin. rewrite Forall_forall in Hf. apply file_lines_concat. apply Hf. exact Hin.
  - apply Forall_map. pose proof (cut_frames (file_lines file)) as Hc.
    rewrite Forall_forall in *. intros f Hin. specialize (Hc f Hin). specialize (Hf f Hin).
    unfold one_frame. rewrite file_lines_concat by exact Hf. exact Hc.
  - rewrite file_lines_concat by exact Ht. apply cut_tail.
Qed.

Lemma frames_partition file : has_separator file ->
  exists m frames tail, mv_open file = Ok m /\
    mapM (get_frame_str m) (seq 0 (num_frames m)) = Ok frames /\ cut_into file frames tail.
Proof.
  intros H. destruct (mv_open file) as [m|e] eqn:E.
  - exists m, (map concat_str (frames_of (file_lines file))), (concat_str (tail_of (file_lines file))).
    split; [reflexivity|]. split; [apply all_frames_spec; exact E|apply frames_cut].
  - rewrite mv_open_spec in E. destruct (frames_of (file_lines file)) eqn:Ef; [|discriminate].
    apply frames_empty_iff in Ef. contradiction.
Qed.

Lemma no_separator_error file : ~ has_separator file -> mv_open file = Err IndexError.
Proof.
  intros H. rewrite mv_open_spec. apply frames_empty_iff in H. rewrite H. reflexivity.
Qed.

Lemma random_access file m k : mv_open file = Ok m ->
  get_frame_str m k = match nth_error (read_sequential m) k with
                      | Some t => Ok t | None => Err IndexError end /\
  num_frames m = List.length (read_sequential m).
Proof.
  intros Hm. rewrite (get_frame_str_spec file m k Hm), (read_sequential_spec file m Hm), (num_frames_spec file m Hm).
  rewrite map_length, nth_error_map. split; [|reflexivity].
  destruct (nth_error (frames_of (file_lines file)) k); reflexivity.
Qed.

(** Uniqueness of the cut: the specification determines the frames. *)
Lemma app_sep_inj (b1 b2 : list string) s1 s2 r1 r2 :
  Forall (fun l => ~ separator l) b1 -> Forall (fun l => ~ separator l) b2 ->
  separator s1 -> separator s2 ->
  (b1 ++ [s1]) ++ r1 = (b2 ++ [s2]) ++ r2 -> b1 = b2 /\ s1 = s2 /\ r1 = r2.
Proof.
  revert b2; induction b1 as [|x b1 IH]; intros [|y b2] H1 H2 Hs1 Hs2 H; cbn in H.
  - injection H as -> ->. auto.
  - injection H as -> H. inversion H2; subst. contradiction.
  - injection H as <- H. inversion H1; subst. contradiction.
  - injection H as <- H. inversion H1; inversion H2; subst.
    destruct (IH b2) as [-> [-> ->]]; auto.
Qed.

Lemma no_sep_app (b : list string) s r t : separator s -> Forall (fun l => ~ separator l) t ->
  (b ++ [s]) ++ r <> t.
Proof.
  intros Hs Ht <-. rewrite !Forall_app in Ht. destruct Ht as [[_ H] _]. inversion H; subst. contradiction.
Qed.

Lemma cut_lines_unique fs1 : forall fs2 t1 t2,
  Forall (fun f => exists body sep, f = body ++ [sep] /\ separator sep /\ Forall (fun l => ~ separator l) body) fs1 ->
  Forall (fun f => exists body sep, f = body ++ [sep] /\ separator sep /\ Forall (fun l => ~ separator l) body) fs2 ->
  Forall (fun l => ~ separator l) t1 -> Forall (fun l => ~ separator l) t2 ->
  concat fs1 ++ t1 = concat fs2 ++ t2 -> fs1 = fs2 /\ t1 = t2.
Proof.
  induction fs1 as [|f1 fs1 IH]; intros [|f2 fs2] t1 t2 H1 H2 Ht1 Ht2 H; cbn [concat app] in H.
  - auto.
  - apply Forall_cons_iff in H2 as [[b [s [-> [Hs Hb]]]] Hr]. rewrite <- app_assoc in H.
    symmetry in H. apply no_sep_app in H; [contradiction|assumption|assumption].
  - apply Forall_cons_iff in H1 as [[b [s [-> [Hs Hb]]]] Hr]. rewrite <- app_assoc in H.
    apply no_sep_app in H; [contradiction|assumption|assumption].
  - apply Forall_cons_iff in H1 as [[b1 [s1 [-> [Hs1 Hb1]]]] Hr1].
    apply Forall_cons_iff in H2 as [[b2 [s2 [-> [Hs2 Hb2]]]] Hr2].
    rewrite <- (app_assoc (b1 ++ [s1])), <- (app_assoc (b2 ++ [s2])) in H.
    apply app_sep_inj in H as [-> [-> H]]; auto.
    destruct (IH fs2 t1 t2) as [-> ->]; auto.
Qed.

Lemma cut_unique file fs1 t1 fs2 t2 :
  cut_into file fs1 t1 -> cut_into file fs2 t2 -> fs1 = fs2 /\ t1 = t2.
Proof.
  intros [_ [L1 [F1 T1]]] [_ [L2 [F2 T2]]].
  rewrite L1 in L2. rewrite !flat_map_concat_map in L2.
  assert (Hf : forall fs, Forall one_frame fs ->
    Forall (fun f => exists body sep, f = body ++ [sep] /\ separator sep /\ Forall (fun l => ~ separator l) body)
      (map file_lines fs)).
  { intros fs H. apply Forall_map. exact H. }
  destruct (cut_lines_unique _ _ _ _ (Hf _ F1) (Hf _ F2) T1 T2 L2) as [E1 E2].
  split.
  - apply (f_equal (map concat_str)) in E1. rewrite !map_map in E1.
    rewrite !(map_ext _ (fun s => s) concat_file_lines), !map_id in E1. exact E1.
  - apply (f_equal concat_str) in E2. rewrite !concat_file_lines in E2. exact E2.
Qed.

(** * Energies *)
Lemma single_line_no_nl s : single_line s -> no_nl s.
Proof.
  induction s as [|c s IH]; intros H; simpl; [exact I|]. split.
  - intros ->. apply (H "" s). reflexivity.
  - apply IH. intros a b ->. apply (H (String c a) b). reflexivity.
Qed.

Lemma first_row row rest : single_line row -> first_row_tokens (row +++ String nl rest) = Ok (split_ws row).
Proof.
  intros H. unfold first_row_tokens.
  destruct (split_on_nl row rest (single_line_no_nl row H)) as [r ->]. reflexivity.
Qed.

Lemma is_space_iff c : is_space c = true <-> space c.
Proof.
  unfold space. cbn [map In]. split.
  - destruct c as [[] [] [] [] [] [] [] []]; intros H; try discriminate H; cbn; auto 12.
  - intros H. repeat (destruct H as [<-|H]; [reflexivity|]). destruct H.
Qed.
Lemma is_space_not c : ~ space c -> is_space c = false.
Proof. intros H. destruct (is_space c) eqn:E; [|reflexivity]. destruct H. apply is_space_iff. exact E. Qed.
Lemma words_split row ts : words row ts -> split_ws row = ts.
Proof.
  assert (B : forall b, blank b -> forall a c r, b = a +++ String c r -> is_space c = true) by (intros b H a c r E; apply is_space_iff; exact (H a c r E)).
  assert (T : forall t, (forall a c b, t = a +++ String c b -> ~ space c) -> forall a c b, t = a +++ String c b -> is_space c = false) by (intros t H a c b E; apply is_space_not; exact (H a c b E)).
  induction 1 as [b Hb|b t Hb [Hne Ht]|b t c row ts Hb [Hne Ht] Hc Hw IH]; pose proof (B _ Hb) as Hb'; clear Hb; rename Hb' into Hb; try (pose proof (T _ Ht) as Ht'; clear Ht; rename Ht' into Ht); try apply is_space_iff in Hc.
  - rewrite <- (append_empty_r b). rewrite split_ws_blank by (apply all_chars_of; exact Hb). reflexivity.
  - rewrite split_ws_blank by (apply all_chars_of; exact Hb).
    apply split_ws_token; [apply all_chars_of; exact Ht|exact Hne].
  - rewrite split_ws_blank by (apply all_chars_of; exact Hb).
    rewrite split_ws_token_cons; [|apply all_chars_of; exact Ht|exact Hne|exact Hc]. congruence.
Qed.

Lemma caseless_equals : caseless "="%char.
Proof. intros [[] [] [] [] [] [] [] []]; reflexivity. Qed.

Lemma not_mentions_equals t : ~ mentions_equals t -> contains "=" (upper t) = false.
Proof.
  intros H. rewrite contains_upper by (simpl; split; [exact caseless_equals|exact I]).
  destruct (contains "=" t) eqn:E; [|reflexivity]. apply contains_spec in E. contradiction.
Qed.

Lemma without_comma_match c :
  match last_char c with Some ","%char => drop_last c | _ => c end = without_comma c.
Proof.
  unfold without_comma. destruct (last_char c) as [x|]; [|reflexivity].
  destruct x as [[] [] [] [] [] [] [] []]; reflexivity.
Qed.

Lemma locate_list_cons i c l ls :
  locate_list_from i c (l :: ls) =
  if contains c (upper l) then i :: locate_list_from (S i) c ls else locate_list_from (S i) c ls.
Proof. reflexivity. Qed.

Section Energies.
Variable F : Type.
Variable pfloat : string -> result F.

Lemma new_header_bulk row rest n t a b c more :
  single_line row -> ~ mentions_equals n -> ~ mentions_equals t ->
  words row ([n; "atoms,Iteration"; "(fs)"; "="; t; "Etot,Ep,Ek"; "(eV)"; "="; a; b; c] ++ more) ->
  bulk_energy_of_text F pfloat (row +++ String nl rest) =
  read3 pfloat a b (without_comma c).
Proof.
  intros Hnl Hn Ht Hw. unfold bulk_energy_of_text. rewrite first_row by exact Hnl. cbn [bind].
  rewrite (words_split _ _ Hw). unfold locate_list. cbn [app].
  rewrite !locate_list_cons.
  rewrite (not_mentions_equals n Hn), (not_mentions_equals t Ht).
  change (contains "=" (upper "atoms,Iteration")) with false.
  change (contains "=" (upper "(fs)")) with false.
  change (contains "=" (upper "=")) with true.
  change (contains "=" (upper "Etot,Ep,Ek")) with false.
  change (contains "=" (upper "(eV)")) with false.
  cbv iota. cbn [get nth_error bind Nat.add]. unfold read3.
  destruct (pfloat a); cbn [bind]; [|reflexivity]. cbn [get nth_error bind].
  destruct (pfloat b); cbn [bind]; [|reflexivity]. cbn [get nth_error bind].
  rewrite without_comma_match. reflexivity.
Qed.

Lemma old_header_bulk row rest n t a b c more :
  single_line row -> ~ mentions_equals n -> ~ mentions_equals t ->
  words row ([n; "atoms,Iteration="; t; "Etot,Ep,Ek="; a; b; c] ++ more) ->
  bulk_energy_of_text F pfloat (row +++ String nl rest) =
  read3 pfloat a b (without_comma c).
Proof.
  intros Hnl Hn Ht Hw. unfold bulk_energy_of_text. rewrite first_row by exact Hnl. cbn [bind].
  rewrite (words_split _ _ Hw). unfold locate_list. cbn [app].
  rewrite !locate_list_cons.
  rewrite (not_mentions_equals n Hn), (not_mentions_equals t Ht).
  change (contains "=" (upper "atoms,Iteration=")) with true.
  change (contains "=" (upper "Etot,Ep,Ek=")) with true.
  cbv iota. cbn [get nth_error bind Nat.add]. unfold read3.
  destruct (pfloat a); cbn [bind]; [|reflexivity]. cbn [get nth_error bind].
  destruct (pfloat b); cbn [bind]; [|reflexivity]. cbn [get nth_error bind].
  rewrite without_comma_match. reflexivity.
Qed.

Lemma new_header_frame row rest n t a b c more :
  single_line row ->
  words row ([n; "atoms,Iteration"; "(fs)"; "="; t; "Etot,Ep,Ek"; "(eV)"; "="; a; b; c] ++ more) ->
  frame_energy_of_text F pfloat (row +++ String nl rest) = read3 pfloat a b (drop_last c).
Proof.
  intros Hnl Hw. unfold frame_energy_of_text. rewrite first_row by exact Hnl. cbn [bind].
  rewrite (words_split _ _ Hw). cbn [app get nth_error bind]. unfold read3.
  destruct (pfloat a); cbn [bind]; [|reflexivity]. cbn [get nth_error bind].
  destruct (pfloat b); cbn [bind]; [|reflexivity]. reflexivity.
Qed.

Lemma old_header_frame row rest n t a b c :
  single_line row ->
  words row [n; "atoms,Iteration="; t; "Etot,Ep,Ek="; a; b; c] ->
  frame_energy_of_text F pfloat (row +++ String nl rest) = Err IndexError.
Proof.
  intros Hnl Hw. unfold frame_energy_of_text. rewrite first_row by exact Hnl. cbn [bind].
  rewrite (words_split _ _ Hw). reflexivity.
Qed.
End Energies.

(** * Virials of the bulk reader *)
Section Virials.
Variables (F : Type) (pfloat : string -> result F) (fzero : F) (S0 : Type).
Variables (fs : string -> result S0) (chk : string -> result unit).

Lemma bulk_loop_spec chunks : forall acc out,
  bulk_loop F pfloat S0 fs chk chunks acc = Ok out ->
  exists sts ens vs,
    Forall2 (fun c st => fs c = Ok st) chunks sts /\
    Forall2 (fun c en => bulk_energy_of_text F pfloat c = Ok en) chunks ens /\
    Forall2 (fun c v => bulk_virial_of_text F pfloat c = Ok v) chunks vs /\
    b_structures F S0 out = b_structures F S0 acc ++ sts /\
    b_energies F S0 out = b_energies F S0 acc ++ ens /\
    b_virials F S0 out = b_virials F S0 acc ++ somes vs.
Proof.
  induction chunks as [|c cs IH]; intros acc out H; cbn [bulk_loop] in H.
  - injection H as <-. exists [], [], []. rewrite !app_nil_r. repeat split; constructor.
  - destruct (fs c) as [st|] eqn:E1; cbn [bind] in H; [|discriminate].
    destruct (bulk_energy_of_text F pfloat c) as [en|] eqn:E2; cbn [bind] in H; [|discriminate].
    destruct (num_atoms_check chk c) as [[]|] eqn:E3; cbn [bind] in H; [|discriminate].
    destruct (bulk_virial_of_text F pfloat c) as [v|] eqn:E4; cbn [bind] in H; [|discriminate].
    apply IH in H as [sts [ens [vs [H1 [H2 [H3 [H4 [H5 H6]]]]]]]].
    cbn [b_structures b_energies b_virials] in H4, H5, H6.
    exists (st :: sts), (en :: ens), (v :: vs).
    rewrite H4, H5, H6, <- !app_assoc. repeat split; try (constructor; assumption).
    destruct v; cbn [somes]; [rewrite <- app_assoc|]; reflexivity.
Qed.

Lemma virial_same c v : bulk_virial_of_text F pfloat c = Ok v ->
  frame_virial_of_text F pfloat fzero c =
  Ok (match v with Some t => t | None => repeat (repeat fzero 3) 3 end).
Proof.
  unfold bulk_virial_of_text, frame_virial_of_text.
  destruct (get (locate_list "LATTICE VECTOR" (split_on nl c)) 0) as [i|]; cbn [bind]; [|discriminate].
  destruct (get (split_on nl c) (i + 1)) as [rx|]; cbn [bind]; [|discriminate].
  destruct (length (split_ws rx) =? 3).
  - intros [= <-]. reflexivity.
  - destruct (last3_row F pfloat rx) as [x|]; cbn [bind]; [|discriminate].
    destruct (get (split_on nl c) (i + 2)) as [ry|]; cbn [bind]; [|discriminate].
    destruct (last3_row F pfloat ry) as [y|]; cbn [bind]; [|discriminate].
    destruct (get (split_on nl c) (i + 3)) as [rz|]; cbn [bind]; [|discriminate].
    destruct (last3_row F pfloat rz) as [z|]; cbn [bind]; [|discriminate].
    destruct (vstack3 F x y z) as [t|]; cbn [bind]; [|discriminate].
    intros [= <-]. reflexivity.
Qed.

Lemma somes_length_le {A} (vs : list (option A)) : List.length (somes vs) <= List.length vs.
Proof. induction vs as [|[v|] vs IH]; cbn; lia. Qed.

Lemma somes_all {A} (vs : list (option A)) :
  List.length (somes vs) = List.length vs <-> Forall (fun v => v <> None) vs.
Proof.
  induction vs as [|[v|] vs IH]; cbn.
  - split; [constructor|reflexivity].
  - rewrite Forall_cons_iff, <- IH. split; [intros H; split; [discriminate|lia]|lia].
  - pose proof (somes_length_le vs). rewrite Forall_cons_iff. split; [lia|]. intros [H1 _]; congruence.
Qed.

Lemma somes_positions {A} (vs : list (option A)) i k t :
  nth_error (somes vs) k = Some t ->
  exists j, nth_error (positions i vs) k = Some (i + j) /\ nth_error vs j = Some (Some t).
Proof.
  revert i k; induction vs as [|[v|] vs IH]; intros i k H; cbn [somes positions] in *.
  - destruct k; discriminate.
  - destruct k as [|k]; cbn in H |- *.
    + injection H as ->. exists 0. rewrite Nat.add_0_r. auto.
    + apply (IH (S i)) in H as [j [H1 H2]]. exists (S j). rewrite Nat.add_succ_r. auto.
  - apply (IH (S i)) in H as [j [H1 H2]]. exists (S j). rewrite Nat.add_succ_r. auto.
Qed.

Lemma positions_lower {A} (vs : list (option A)) i p : In p (positions i vs) -> i <= p.
Proof.
  revert i; induction vs as [|[v|] vs IH]; intros i H; cbn in H; [contradiction| |].
  - destruct H as [<-|H]; [lia|]. apply IH in H. lia.
  - apply IH in H. lia.
Qed.

Lemma positions_prefix {A} (vs : list (option A)) i :
  (forall k p, nth_error (positions i vs) k = Some p -> p = i + k) <->
  (forall a b t, a < b -> nth_error vs a = Some None -> nth_error vs b <> Some (Some t)).
Proof.
  revert i; induction vs as [|[v|] vs IH]; intros i; cbn [positions].
  - split; [intros _ [|a] b t _ H; discriminate|intros _ [|k] p H; discriminate].
  - specialize (IH (S i)). split.
    + intros H [|a] b t Hab Ha; [discriminate|]. destruct b as [|b]; [lia|]. cbn in *.
      apply IH with (a := a); [|lia|exact Ha]. intros k p Hk. rewrite (H (S k) p Hk). lia.
    + intros H [|k] p Hk; cbn in Hk; [injection Hk as <-; lia|].
      assert (p = S i + k); [|lia]. revert k p Hk. apply IH.
      intros a b t Hab Ha. apply (H (S a) (S b) t); [lia|exact Ha].
  - split.
    + intros H [|a] b t Hab Ha Hb.
      * destruct b as [|b]; [lia|]. cbn in Hb.
        assert (Hin : In (S i + b) (positions (S i) vs)).
        { clear -Hb. generalize (S i) as m. revert b Hb; induction vs as [|[w|] vs IH]; intros [|b] Hb m; cbn in *; try discriminate.
          - left. lia.
          - right. rewrite Nat.add_succ_r. apply (IH b Hb (S m)).
          - rewrite Nat.add_succ_r. apply (IH b Hb (S m)). }
        destruct (positions (S i) vs) as [|p ps] eqn:Ep; [contradiction|].
        specialize (H 0 p eq_refl). pose proof (positions_lower vs (S i) p). rewrite Ep in H0.
        specialize (H0 (or_introl eq_refl)). lia.
      * destruct b as [|b]; [lia|]. cbn in *.
        destruct (positions (S i) vs) as [|p ps] eqn:Ep.
        -- assert (Hn : forall vs m, @positions A m vs = [] -> forall b t, nth_error vs b <> Some (Some t)).
           { clear. induction vs as [|[w|] vs IH]; intros m Hm [|b] t; cbn in *; try discriminate.
             apply (IH (S m) Hm). }
           exact (Hn vs (S i) Ep b t Hb).
        -- specialize (H 0 p eq_refl). pose proof (positions_lower vs (S i) p). rewrite Ep in H0.
           specialize (H0 (or_introl eq_refl)). lia.
    + intros H k p Hk. exfalso. apply nth_error_In in Hk.
      assert (Hn : forall vs m, In p (@positions A m vs) -> exists b t, nth_error vs b = Some (Some t)).
      { clear. induction vs as [|[w|] vs IH]; intros m Hm; cbn in *; [contradiction| |].
        - exists 0, w. reflexivity.
        - destruct (IH (S m) Hm) as [b [t Hb]]. exists (S b), t. exact Hb. }
      destruct (Hn vs (S i) Hk) as [b [t Hb]]. apply (H 0 (S b) t); [lia|reflexivity|exact Hb].
Qed.

Lemma bulk_reader file m out : mv_open file = Ok m ->
  get_all_frame_structures_info F pfloat S0 fs chk m = Ok out ->
  List.length (b_structures F S0 out) = num_frames m /\
  List.length (b_energies F S0 out) = num_frames m /\
  (forall k txt, get_frame_str m k = Ok txt ->
     exists st en,
       nth_error (b_structures F S0 out) k = Some st /\ fs txt = Ok st /\
       nth_error (b_energies F S0 out) k = Some en /\ bulk_energy_of_text F pfloat txt = Ok en) /\
  exists vs, List.length vs = num_frames m /\ b_virials F S0 out = somes vs /\
    forall k v, nth_error vs k = Some v ->
      get_frame_virial F pfloat fzero m k =
      Ok (match v with Some t => t | None => repeat (repeat fzero 3) 3 end).
Proof.
  intros Hm H. unfold get_all_frame_structures_info in H.
  apply bulk_loop_spec in H as [sts [ens [vs [H1 [H2 [H3 [H4 [H5 H6]]]]]]]].
  cbn in H4, H5, H6.
  assert (Hn : forall k, num_frames m = List.length (read_sequential m)) by (intros k; apply (random_access file m k Hm)).
  rewrite (Hn 0), H4, H5, H6.
  rewrite <- (Forall2_length H1), <- (Forall2_length H2). repeat split.
  - intros k txt Hk. destruct (random_access file m k Hm) as [Hr _]. rewrite Hr in Hk.
    destruct (nth_error (read_sequential m) k) as [t|] eqn:Et; [|discriminate]. injection Hk as ->.
    destruct (Forall2_nth H1 k txt Et) as [st [Hs1 Hs2]].
    destruct (Forall2_nth H2 k txt Et) as [en [He1 He2]].
    exists st, en. auto.
  - exists vs. rewrite <- (Forall2_length H3). repeat split.
    intros k v Hv. destruct (Forall2_nth_r H3 k v Hv) as [txt [Ht1 Ht2]].
    unfold get_frame_virial. destruct (random_access file m k Hm) as [Hr _]. rewrite Hr, Ht1. cbn [bind].
    apply virial_same. exact Ht2.
Qed.
End Virials.

Lemma bulk_counts (F : Type) (pfloat : string -> result F) (S0 : Type) (fs : string -> result S0) (chk : string -> result unit) file m out k txt :
  mv_open file = Ok m -> get_all_frame_structures_info F pfloat S0 fs chk m = Ok out -> get_frame_str m k = Ok txt ->
  exists row more w ws, split_on nl txt = row :: more /\ split_ws row = w :: ws /\ chk w = Ok tt.
Proof.
  intros Hm H Hk. destruct (random_access file m k Hm) as [Hr _]. rewrite Hr in Hk. destruct (nth_error (read_sequential m) k) as [t|] eqn:Et; [|discriminate]. assert (t = txt) as -> by congruence.
  apply nth_error_In in Et. unfold get_all_frame_structures_info in H. revert H Et. generalize ({| b_structures := []; b_energies := []; b_virials := [] |} : bulk F S0).
  generalize (read_sequential m). clear. intros chunks. induction chunks as [|c cs IH]; intros acc H It; [destruct It|]. cbn [bulk_loop] in H.
  destruct (fs c) as [st|]; cbn [bind] in H; [|discriminate]. destruct (bulk_energy_of_text F pfloat c) as [en|]; cbn [bind] in H; [|discriminate].
  destruct (num_atoms_check chk c) as [[]|] eqn:E3; cbn [bind] in H; [|discriminate]. destruct (bulk_virial_of_text F pfloat c) as [v|]; cbn [bind] in H; [|discriminate].
  destruct It as [->|It]; [|exact (IH _ H It)]. unfold num_atoms_check, first_row_tokens in E3. destruct (split_on nl txt) as [|row more]; [discriminate|]. cbn [get nth_error bind] in E3.
  destruct (split_ws row) as [|w ws] eqn:Ew; [discriminate|]. cbn [get nth_error bind] in E3. exists row, more, w, ws. auto.
Qed.

(** * [from_str] *)
Lemma from_str_exact {S : Type} mk fmt txt : (fmt = "pwmat" -> @from_str S mk fmt txt = Err AttributeError) /\ (fmt <> "pwmat" -> @from_str S mk fmt txt = Err ValueError).
Proof.
  unfold from_str. split.
  - intros ->. cbn [String.eqb]. unfold acstr_init. destruct (search_num_atoms txt); reflexivity.
  - intros H. apply String.eqb_neq in H. rewrite H. reflexivity.
Qed.
Lemma from_str_raises {S : Type} mk fmt txt : exists e, @from_str S mk fmt txt = Err e.
Proof.
  destruct (@from_str_exact S mk fmt txt) as (A & B). destruct (String.eqb_spec fmt "pwmat") as [E|E]; eexists; auto.
Qed.

Lemma structures_unavailable {S : Type} mk file m : mv_open file = Ok m ->
  (exists e, get_all_frame_structures S (from_str mk "pwmat") m = Err e) /\
  (forall k, exists e, get_frame_structure S (from_str mk "pwmat") m k = Err e) /\
  (forall F pfloat chk, exists e, get_all_frame_structures_info F pfloat S (from_str mk "pwmat") chk m = Err e).
Proof.
  intros Hm.
  assert (Hne : exists c cs, read_sequential m = c :: cs).
  { rewrite (read_sequential_spec file m Hm). rewrite mv_open_spec in Hm.
    destruct (frames_of (file_lines file)) as [|f fs]; [discriminate|]. cbn. eauto. }
  destruct Hne as [c [cs Hc]]. repeat split.
  - unfold get_all_frame_structures. rewrite Hc. cbn [mapM].
    destruct (@from_str_raises S mk "pwmat" c) as [e ->]. exists e. reflexivity.
  - intros k. unfold get_frame_structure. destruct (get_frame_str m k) as [t|e]; cbn [bind]; [|eauto].
    apply from_str_raises.
  - intros F pfloat chk. unfold get_all_frame_structures_info. rewrite Hc. cbn [bulk_loop].
    destruct (@from_str_raises S mk "pwmat" c) as [e ->]. exists e. reflexivity.
Qed.
