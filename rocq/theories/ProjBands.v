(** Proofs about band weights: opening a file, splitting it into bands, orbitals. *)
From Coq Require Import String Ascii Reals Lra Lia Permutation.
From Verif Require Import Base Text TextProofs MovementModel NbMlffProofs BandRead ProjModel ProjSpec ProjProofs.
Local Open Scope string_scope.
Local Open Scope list_scope.
Local Open Scope nat_scope.

(** ** Splitting into equal parts *)

Lemma cut_equal {A} (parts : list (list A)) m : (forall p, In p parts -> length p = m) ->
  cut (repeat m (length parts)) (concat parts) = parts.
Proof.
  induction parts as [|p r IH]; intros H; [reflexivity|]. cbn [length repeat cut concat].
  assert (L : length p = m) by (apply H; left; reflexivity).
  rewrite firstn_app, skipn_app, L, Nat.sub_diag, <- L, firstn_all, skipn_all. cbn [firstn skipn app]. rewrite app_nil_r. f_equal.
  rewrite L. apply IH. intros; apply H; right; assumption.
Qed.
Lemma concat_equal_length {A} (parts : list (list A)) m : (forall p, In p parts -> length p = m) -> length (concat parts) = m * length parts.
Proof.
  induction parts as [|p r IH]; intros H; [cbn; lia|]. cbn [concat length]. rewrite app_length, IH by (intros; apply H; right; assumption).
  rewrite (H p) by (left; reflexivity). lia.
Qed.
Lemma array_split_equal {A} (parts : list (list A)) m : parts <> [] -> (forall p, In p parts -> length p = m) ->
  array_split (concat parts) (length parts) = Ok parts.
Proof.
  intros Hn H. unfold array_split. destruct (length parts) as [|k] eqn:K; [destruct parts; [contradiction|discriminate]|].
  rewrite <- K. rewrite (concat_equal_length parts m H).
  rewrite Nat.mod_mul, Nat.div_mul by lia. cbn [repeat app]. rewrite Nat.sub_0_r. f_equal. apply cut_equal, H.
Qed.

(** In general: [k] pieces, in order, whose sizes differ by at most one. *)
Lemma cut_concat {A} sizes (l : list A) : fold_right plus 0 sizes = length l -> concat (cut sizes l) = l.
Proof.
  revert l; induction sizes as [|s r IH]; intros l H; cbn [fold_right] in H; cbn [cut concat].
  - destruct l; [reflexivity|discriminate].
  - rewrite IH by (rewrite skipn_length; lia). apply firstn_skipn.
Qed.
Lemma cut_sizes {A} sizes (l : list A) : fold_right plus 0 sizes = length l -> map (@length A) (cut sizes l) = sizes.
Proof.
  revert l; induction sizes as [|s r IH]; intros l H; cbn [fold_right] in H; cbn [cut map]; [reflexivity|].
  rewrite firstn_length, IH by (rewrite skipn_length; lia). f_equal. lia.
Qed.
Lemma sum_repeat n k : fold_right plus 0 (repeat n k) = n * k.
Proof. induction k as [|k IH]; cbn [repeat fold_right]; [lia|]. rewrite IH. lia. Qed.
Lemma sum_app l m : fold_right plus 0 (l ++ m) = fold_right plus 0 l + fold_right plus 0 m.
Proof. induction l as [|x l IH]; cbn [app fold_right]; [reflexivity|]. rewrite IH. lia. Qed.
Lemma array_split_spec {A} (l : list A) k out : array_split l k = Ok out ->
  length out = k /\ concat out = l /\ forall p, In p out -> length l / k <= length p <= S (length l / k).
Proof.
  intros H. destruct k as [|k']; [discriminate|]. set (k := S k') in *.
  set (q := length l / k). set (r := length l mod k).
  assert (Eo : out = cut (repeat (S q) r ++ repeat q (k - r)) l) by (symmetry; exact (f_equal (fun x => match x with Ok y => y | Err _ => [] end) H)).
  clear H. subst out.
  assert (E : length l = k * q + r) by (apply Nat.div_mod; discriminate).
  assert (Hr : r < k) by (apply Nat.mod_upper_bound; discriminate).
  assert (Sz : fold_right plus 0 (repeat (S q) r ++ repeat q (k - r)) = length l).
  { rewrite sum_app, !sum_repeat. nia. }
  split; [|split].
  - rewrite <- (map_length (@length A)). rewrite cut_sizes by exact Sz. rewrite app_length, !repeat_length. lia.
  - apply cut_concat, Sz.
  - intros p Hp. apply (in_map (@length A)) in Hp. rewrite cut_sizes in Hp by exact Sz.
    apply in_app_iff in Hp. destruct Hp as [Hp|Hp]; apply repeat_spec in Hp; rewrite Hp; split; lia.
Qed.

Section Fat.
Variable float_of : string -> result R.
Variable set_order : list string -> list string.

(** ** The files *)

Lemma filter_all {A} (f : A -> bool) l : (forall x, In x l -> f x = true) -> filter f l = l.
Proof. induction l as [|x r IH]; intros H; [reflexivity|]. cbn [filter]. rewrite H by (left; reflexivity). f_equal. apply IH. intros; apply H; right; assumption. Qed.
Lemma filter_none {A} (f : A -> bool) l : (forall x, In x l -> f x = false) -> filter f l = [].
Proof. induction l as [|x r IH]; intros H; [reflexivity|]. cbn [filter]. rewrite H by (left; reflexivity). apply IH. intros; apply H; right; assumption. Qed.

Definition fields (l : list string) : bool := match l with [] => false | _ => true end.
Lemma data_lines head bands : plain head -> ~ blank head -> (forall b, In b bands -> band_ok b) ->
  filter fields (map split_ws (filter (fun l => negb (contains "BAND" l)) (file head bands)))
  = split_ws head :: map split_ws (concat (map b_rows bands)).
Proof.
  intros Hp Hb H. unfold file. cbn [filter]. destruct Hp as [_ Hp]. rewrite Hp. cbn [negb map filter].
  unfold blank in Hb. destruct (split_ws head) as [|t ts] eqn:E; [contradiction|]. cbn [fields]. f_equal. clear Hp Hb E.
  induction bands as [|b r IH]; [reflexivity|]. cbn [map concat]. rewrite filter_app, !map_app, filter_app, IH by (intros; apply H; right; assumption).
  f_equal. destruct (H b (or_introl eq_refl)) as (Ht & Hr & Hbl). unfold band_lines. cbn [filter].
  destruct Ht as [_ Ht]. rewrite Ht. cbn [negb]. rewrite filter_app, map_app, filter_app.
  rewrite (filter_all _ (b_rows b)) by (intros l Hl; destruct (Hr l Hl) as [[_ Hq] _]; rewrite Hq; reflexivity).
  rewrite (filter_all _ (map split_ws (b_rows b))).
  - rewrite (filter_none _ (map split_ws _)); [apply app_nil_r|]. intros x Hx. apply in_map_iff in Hx. destruct Hx as (l & <- & Hl).
    apply filter_In in Hl. destruct Hl as [Hl _]. destruct (Hbl l Hl) as [_ Hq]. unfold blank in Hq. rewrite Hq. reflexivity.
  - intros x Hx. apply in_map_iff in Hx. destruct Hx as (l & <- & Hl). destruct (Hr l Hl) as [_ Hq]. unfold blank in Hq.
    destruct (split_ws l); [contradiction|reflexivity].
Qed.

Definition parse (n : nat) (r : list string) : result (list R) :=
  if length r =? n then mapM float_of r else Err ValueError.
Lemma read_csv_eq lines : read_csv float_of lines =
  match filter fields lines with
  | [] => Err ValueError
  | head :: rows => bind (mapM (parse (length head)) rows) (fun b => Ok {| names := head; body := b |})
  end.
Proof. reflexivity. Qed.

Lemma mapM_concat {A B} (g : A -> result B) ls out : mapM g (concat ls) = Ok out ->
  exists outs, out = concat outs /\ Forall2 (fun l o => mapM g l = Ok o) ls outs.
Proof.
  revert out; induction ls as [|l r IH]; intros out H; cbn [concat] in H.
  - injection H as <-. exists []. split; [reflexivity|constructor].
  - rewrite mapM_app in H. destruct (mapM g l) as [o|] eqn:El; [|discriminate]. cbn [bind] in H.
    destruct (mapM g (concat r)) as [os|] eqn:Er; [|discriminate]. cbn [bind] in H. injection H as <-.
    destruct (IH os eq_refl) as (outs & -> & F). exists (o :: outs). split; [reflexivity|]. constructor; assumption.
Qed.

(** The table of a file is the tables of its bands, each read as if it were alone, one after
    the other. *)
Lemma fat_frame_bands head bands f : plain head -> ~ blank head -> (forall b, In b bands -> band_ok b) ->
  fat_frame float_of (file head bands) = Ok f ->
  exists parts, body f = concat parts /\
  Forall2 (fun b p => exists g, fat_frame float_of (head :: b_rows b) = Ok g /\ names g = names f /\ body g = p /\ length p = length (b_rows b)) bands parts.
Proof.
  intros Hp Hb H E. unfold fat_frame in E. rewrite read_csv_eq, (data_lines _ _ Hp Hb H) in E.
  destruct (mapM _ (map split_ws _)) as [out|] eqn:Em; [|discriminate]. cbn [bind names body] in E.
  destruct (column (split_ws head) "KPOINT") as [i|] eqn:Ec; [|discriminate]. cbn [bind] in E. injection E as <-. cbn [names body].
  rewrite concat_map, map_map in Em. apply mapM_concat in Em. destruct Em as (outs & -> & F).
  exists (map (map (map_nth (fun x => (x / bohr)%R) i)) outs). split; [rewrite concat_map; reflexivity|].
  clear -F Ec H Hp Hb. revert outs F. induction bands as [|b r IH]; intros outs F; cbn [map] in F; inversion F as [|? o ? os Ho Fr]; subst; cbn [map]; constructor.
  - assert (D : filter fields (map split_ws (filter (fun l => negb (contains "BAND" l)) (head :: b_rows b))) = split_ws head :: map split_ws (b_rows b)).
    { destruct (H b (or_introl eq_refl)) as (_ & Hr & _).
      rewrite (filter_all _ (head :: b_rows b)) by (intros l [<-|Hl]; [destruct Hp as [_ Hq]|destruct (Hr l Hl) as [[_ Hq] _]]; rewrite Hq; reflexivity).
      cbn [map]. apply filter_all. intros x [<-|Hx]; [unfold blank in Hb; destruct (split_ws head); [contradiction|reflexivity]|].
      apply in_map_iff in Hx. destruct Hx as (l & <- & Hl). destruct (Hr l Hl) as [_ Hq]. unfold blank in Hq. destruct (split_ws l); [contradiction|reflexivity]. }
    unfold fat_frame. rewrite read_csv_eq, D, Ho. cbn [bind names body]. rewrite Ec. cbn [bind]. eexists. split; [reflexivity|].
    split; [reflexivity|]. split; [reflexivity|]. rewrite map_length. apply mapM_length in Ho. rewrite map_length in Ho. exact Ho.
  - apply IH; [intros; apply H; right; assumption|exact Fr].
Qed.

(** Titles. *)
Lemma locate_plain k ls rest : (forall l, In l ls -> contains "BAND" (upper l) = false) ->
  locate_lines_from k "BAND" (ls ++ rest) = locate_lines_from (k + length ls) "BAND" rest.
Proof.
  revert k; induction ls as [|l r IH]; intros k H; cbn [app length locate_lines_from]; [f_equal; lia|].
  rewrite H by (left; reflexivity). rewrite IH by (intros; apply H; right; assumption). f_equal. lia.
Qed.
Lemma locate_band k b rest : band_ok b ->
  locate_lines_from k "BAND" (band_lines b ++ rest) = S k :: locate_lines_from (k + length (band_lines b)) "BAND" rest.
Proof.
  intros (Ht & Hr & Hb). unfold band_lines. cbn [app locate_lines_from]. destruct Ht as [Ht _]. rewrite Ht. f_equal.
  rewrite locate_plain.
  - f_equal. cbn [length]. lia.
  - intros l Hl. apply in_app_iff in Hl. destruct Hl as [Hl|Hl]; [apply (Hr l Hl)|apply (Hb l Hl)].
Qed.
Lemma locate_count k bands : (forall b, In b bands -> band_ok b) ->
  length (locate_lines_from k "BAND" (concat (map band_lines bands))) = length bands.
Proof.
  revert k; induction bands as [|b r IH]; intros k H; [reflexivity|]. cbn [map concat]. rewrite locate_band by (apply H; left; reflexivity).
  cbn [length]. rewrite IH; [reflexivity|]. intros; apply H; right; assumption.
Qed.
Lemma locate_file head bands : plain head -> locate_lines_from 0 "BAND" (file head bands) = locate_lines_from 1 "BAND" (concat (map band_lines bands)).
Proof. intros [Hp _]. unfold file. cbn [locate_lines_from]. rewrite Hp. reflexivity. Qed.

Lemma fat_open_inv lines b : fat_open float_of set_order lines = Ok b ->
  fat_lines b = lines /\ num_bands b = length (locate_lines_from 0 "BAND" lines) /\ 2 <= num_bands b /\
  exists f, fat_frame float_of lines = Ok f /\ fat_elements set_order f = Ok (elements b).
Proof.
  intros H. unfold fat_open in H. cbv zeta in H. destruct (get _ 1) as [x|] eqn:E1; [|discriminate]. cbn [bind] in H.
  destruct (get _ 0) as [y|] eqn:E0; [|discriminate]. cbn [bind] in H. destruct (fat_frame float_of lines) as [f|] eqn:Ef; [|discriminate]. cbn [bind] in H.
  destruct (fat_elements set_order f) as [els|] eqn:Ee; [|discriminate]. cbn [bind] in H. injection H as <-. cbn [fat_lines num_bands elements].
  split; [reflexivity|]. split; [reflexivity|]. split; [|exists f; auto].
  apply get_nth in E1. apply nth_error_Some. congruence.
Qed.

Lemma numbers head bands b : plain head -> (forall t, In t bands -> band_ok t) -> fat_open float_of set_order (file head bands) = Ok b ->
  num_bands b = length bands /\
  forall t u r, bands = t :: u :: r -> num_kpoints b = (Z.of_nat (length (b_rows t)) + Z.of_nat (length (b_blank t)) - 1)%Z.
Proof.
  intros Hp H E. pose proof (fat_open_inv _ _ E) as (_ & N & _). rewrite locate_file in N by exact Hp. rewrite locate_count in N by exact H.
  split; [exact N|]. intros t u r ->. unfold fat_open in E. rewrite locate_file in E by exact Hp. cbn [map concat] in E.
  rewrite locate_band in E by (apply H; left; reflexivity). rewrite locate_band in E by (apply H; right; left; reflexivity).
  cbv zeta in E. unfold get in E. cbn [nth_error bind] in E.
  destruct (fat_frame float_of _) as [f|]; [|discriminate]. cbn [bind] in E. destruct (fat_elements set_order f); [|discriminate]. cbn [bind] in E.
  apply (f_equal (fun x => match x with Ok y => num_kpoints y | Err _ => 0%Z end)) in E. cbn beta iota delta [num_kpoints] in E. rewrite <- E.
  unfold band_lines. cbn [length]. rewrite app_length. lia.
Qed.

Lemma too_few head bands : plain head -> (forall t, In t bands -> band_ok t) -> length bands < 2 ->
  fat_open float_of set_order (file head bands) = Err IndexError.
Proof.
  intros Hp H L. unfold fat_open. rewrite locate_file by exact Hp. cbv zeta.
  pose proof (locate_count 1 bands H) as C. unfold get.
  destruct (nth_error (locate_lines_from 1 "BAND" (concat (map band_lines bands))) 1) eqn:E; [|reflexivity].
  assert (1 < length bands); [|lia]. rewrite <- C. apply nth_error_Some. congruence.
Qed.

(** Bands of equal length are told apart. *)
Lemma F2_lengths {A B} (P : A -> B -> Prop) l m : Forall2 P l m -> length l = length m.
Proof. induction 1; cbn; lia. Qed.

Lemma total_bands head bands b m : plain head -> ~ blank head -> (forall t, In t bands -> band_ok t /\ length (b_rows t) = m) ->
  fat_open float_of set_order (file head bands) = Ok b ->
  exists ns parts, total_dfs float_of b = Ok (ns, parts) /\
  Forall2 (fun t p => exists g, fat_frame float_of (head :: b_rows t) = Ok g /\ names g = ns /\ body g = p) bands parts.
Proof.
  intros Hp Hb H E. assert (H1 : forall t, In t bands -> band_ok t) by (intros; apply H; assumption).
  destruct (numbers _ _ _ Hp H1 E) as [N _]. destruct (fat_open_inv _ _ E) as (L & _ & Two & f & F & _).
  destruct (fat_frame_bands _ _ _ Hp Hb H1 F) as (parts & Bd & FF). exists (names f), parts. split.
  - unfold total_dfs. rewrite L, F. cbn [bind]. rewrite Bd, N, (F2_lengths _ _ _ FF).
    rewrite (array_split_equal parts m); [reflexivity| |].
    + apply F2_lengths in FF. destruct parts; [cbn in FF; lia|discriminate].
    + intros p Hpp. clear -FF Hpp H. induction FF as [|t p' bs ps (g & _ & _ & _ & Lp) FF IH]; [destruct Hpp|].
      destruct Hpp as [->|Hpp]; [rewrite Lp; apply H; left; reflexivity|]. apply IH; [intros; apply H; right; assumption|exact Hpp].
  - clear -FF. induction FF as [|t p bs ps (g & G1 & G2 & G3 & _) FF IH]; constructor; [|exact IH]. exists g. auto.
Qed.

(** ** Elements *)

Hypothesis Hset : enumerates set_order.

Lemma drop_first_in x y l : In y (drop_first x l) -> In y l.
Proof. induction l as [|z r IH]; cbn [drop_first]; [tauto|]. destruct (String.eqb x z); cbn [In]; tauto. Qed.
Lemma in_drop_first x y l : y <> x -> In y l -> In y (drop_first x l).
Proof.
  intros N; induction l as [|z r IH]; cbn [drop_first]; [tauto|]. destruct (String.eqb_spec x z) as [->|Nz]; cbn [In]; [|tauto].
  intros [->|H]; [congruence|exact H].
Qed.
Lemma remove_name_ok x l r : remove_name x l = Ok r -> In x l /\ r = drop_first x l.
Proof.
  unfold remove_name. destruct (existsb (String.eqb x) l) eqn:E; [|discriminate]. intros [= <-]. split; [|reflexivity].
  apply existsb_exists in E. destruct E as (y & Hy & Ey). apply String.eqb_eq in Ey. subst. exact Hy.
Qed.
Lemma drop_first_nodup x l : NoDup l -> NoDup (drop_first x l) /\ (forall y, In y (drop_first x l) <-> In y l /\ y <> x).
Proof.
  induction l as [|z r IH]; intros N; cbn [drop_first]; [split; [constructor|cbn; tauto]|]. inversion N as [|? ? Hz Nr]; subst.
  destruct (IH Nr) as [Nd I]. destruct (String.eqb_spec x z) as [->|Ne].
  - split; [exact Nr|]. intros y. cbn [In]. split.
    + intros Hy. split; [right; exact Hy|]. intros ->. contradiction.
    + intros [[->|Hy] Ny]; [congruence|exact Hy].
  - split.
    + constructor; [|exact Nd]. intros H. apply I in H. tauto.
    + intros y. cbn [In]. rewrite I. split; [intros [->|[? ?]]; split; auto|tauto].
Qed.
Lemma elements_spec f els : NoDup (names f) -> fat_elements set_order f = Ok els ->
  (forall n, In n head3 -> In n (names f)) /\ NoDup els /\
  forall e, In e els <-> exists n, In n (names f) /\ ~ In n head3 /\ belongs n e.
Proof.
  intros N H. unfold fat_elements in H.
  destruct (remove_name "KPOINT" (names f)) as [l1|] eqn:E1; [|discriminate]. cbn [bind] in H.
  destruct (remove_name "ENERGY" l1) as [l2|] eqn:E2; [|discriminate]. cbn [bind] in H.
  destruct (remove_name "weight_tot" l2) as [l3|] eqn:E3; [|discriminate]. cbn [bind] in H. injection H as <-.
  apply remove_name_ok in E1, E2, E3. destruct E1 as [K1 ->], E2 as [K2 ->], E3 as [K3 ->].
  destruct (drop_first_nodup "KPOINT" _ N) as [N1 I1]. destruct (drop_first_nodup "ENERGY" _ N1) as [N2 I2]. destruct (drop_first_nodup "weight_tot" _ N2) as [N3 I3].
  split.
  { intros n [<-|[<-|[<-|[]]]]; [exact K1|apply I1, K2|]. apply I2 in K3. destruct K3 as [K3 _]. apply I1 in K3. apply K3. }
  destruct (Hset (map element_of (drop_first "weight_tot" (drop_first "ENERGY" (drop_first "KPOINT" (names f)))))) as [Nd I].
  split; [exact Nd|]. intros e. rewrite I, in_map_iff. split.
  - intros (n & <- & Hn). exists n. apply I3 in Hn. destruct Hn as [Hn X3]. apply I2 in Hn. destruct Hn as [Hn X2]. apply I1 in Hn. destruct Hn as [Hn X1].
    split; [exact Hn|]. split; [cbn; intuition congruence|apply element_belongs].
  - intros (n & Hn & Hh & B). exists n. split; [apply belongs_iff, B|]. apply I3. cbn in Hh. split; [apply I2; split; [apply I1; split; [exact Hn|]|]|]; intuition congruence.
Qed.

Lemma columns3 f g : columns f head3 = Ok g -> rect f -> names g = head3 /\
  Forall2 (fun row row' => exists k e w, row' = [k; e; w] /\ entry_under "KPOINT" (names f) row k /\ entry_under "ENERGY" (names f) row e /\ entry_under "weight_tot" (names f) row w) (body f) (body g).
Proof.
  intros H R0. unfold columns, head3 in H. cbn [mapM] in H.
  destruct (column (names f) "KPOINT") as [i|] eqn:Ca; [|discriminate]. cbn [bind] in H.
  destruct (column (names f) "ENERGY") as [j|] eqn:Cb; [|discriminate]. cbn [bind] in H.
  destruct (column (names f) "weight_tot") as [k|] eqn:Cc; [|discriminate]. cbn [bind] in H.
  destruct (mapM _ (body f)) as [bd|] eqn:E; [|discriminate]. cbn [bind] in H. injection H as <-. cbn [names body].
  split; [reflexivity|]. apply mapM_forall2 in E. unfold rect in R0. rewrite Forall_forall in R0.
  revert R0 E. generalize (body f). intros l R0 E. induction E as [|row row' l bd Hrow E IH]; constructor.
  - cbn [mapM] in Hrow. destruct (get row i) as [x|] eqn:Gx; [|discriminate]. cbn [bind] in Hrow.
    destruct (get row j) as [y|] eqn:Gy; [|discriminate]. cbn [bind] in Hrow.
    destruct (get row k) as [z|] eqn:Gz; [|discriminate]. cbn [bind] in Hrow. injection Hrow as <-.
    assert (L : length (names f) = length row) by (symmetry; apply R0; left; reflexivity).
    exists x, y, z. split; [reflexivity|]. split; [apply entry_of with i|split; [apply entry_of with j|apply entry_of with k]]; assumption.
  - apply IH. intros; apply R0; right; assumption.
Qed.

(** What the element tables contain: the three first columns, then for each element the sum
    of the columns whose heading begins with its name. *)
Lemma element_dfs_spec lines b f : fat_open float_of set_order lines = Ok b -> fat_frame float_of lines = Ok f -> NoDup (names f) ->
  exists parts, element_dfs float_of b = Ok (head3 ++ elements b, parts) /\ length parts = num_bands b /\
  Forall2 (fun row row' => exists k e w vals, row' = k :: e :: w :: vals /\
     entry_under "KPOINT" (names f) row k /\ entry_under "ENERGY" (names f) row e /\ entry_under "weight_tot" (names f) row w /\
     Forall2 (fun el v => sum_where (fun n => begins n el) (names f) row v) (elements b) vals) (body f) (concat parts).
Proof.
  intros O F N. destruct (fat_open_inv _ _ O) as (L & _ & Two & f' & F' & El). rewrite F in F'. injection F' as <-.
  destruct (elements_spec _ _ N El) as (Hh & _ & _). pose proof (fat_rect _ _ _ F) as Rf.
  destruct (columns_total f head3 Rf Hh) as [h Hc]. unfold element_dfs. rewrite L, F. cbn [bind].
  change ["KPOINT"; "ENERGY"; "weight_tot"] with head3. rewrite Hc. cbn [bind].
  destruct (columns3 _ _ Hc Rf) as [_ C3].
  set (rows := map _ (combine (body h) (body f))).
  destruct (array_split rows (num_bands b)) as [parts|e] eqn:Es; [|unfold array_split in Es; destruct (num_bands b); [lia|discriminate]].
  cbn [bind]. exists parts. split; [reflexivity|]. destruct (array_split_spec _ _ _ Es) as (Lp & Cp & _). split; [exact Lp|].
  rewrite Cp. unfold rows. clear Es Lp Cp rows.
  assert (Su : forall row, In row (body f) -> Forall2 (fun e v => sum_where (fun n => begins n e) (names f) row v) (elements b)
      (map (fun el => masked_sum (starts_with el) (names f) row) (elements b))) by (intros; apply sums_spec; assumption).
  revert Su C3. generalize (body f), (body h). intros l l' Su C3. induction C3 as [|row row' l l' (k & e & w & -> & K1 & K2 & K3) C3 IH]; [constructor|].
  cbn [combine map fst snd app]. constructor.
  - exists k, e, w. eexists. split; [reflexivity|]. split; [exact K1|]. split; [exact K2|]. split; [exact K3|]. apply Su. left; reflexivity.
  - apply IH. intros; apply Su; right; assumption.
Qed.
End Fat.

(** ** Orbitals *)

Lemma upper_append a b : upper (String.append a b) = String.append (upper a) (upper b).
Proof. induction a as [|c a IH]; cbn; congruence. Qed.
Lemma upper_split s a b : upper s = String.append a b -> exists u v, s = String.append u v /\ upper u = a /\ upper v = b.
Proof.
  revert s; induction a as [|c a IH]; intros s H.
  - exists "", s. cbn in *. auto.
  - destruct s as [|d s]; cbn in H; [discriminate|]. injection H as Hc H. destruct (IH s H) as (u & v & -> & E1 & E2).
    exists (String d u), v. cbn. split; [reflexivity|]. split; [congruence|exact E2].
Qed.
Lemma occurs_iff t n : contains (upper t) (upper n) = true <-> occurs_in t n.
Proof.
  rewrite contains_spec. split.
  - intros (a & b & H). apply upper_split in H. destruct H as (u & v & -> & _ & E).
    apply upper_split in E. destruct E as (w & x & -> & E1 & _). exists u, w, x. auto.
  - intros (a & u & b & -> & E). exists (upper a), (upper b). rewrite !upper_append, E. reflexivity.
Qed.
Lemma orbital_column_iff o n : orbital_column o n = true <-> occurs_in o n \/ exists h, In h head3 /\ occurs_in h n.
Proof.
  unfold orbital_column, head3. cbn [existsb]. rewrite !Bool.orb_true_iff, !occurs_iff. split.
  - intros [H|[H|[H|[H|H]]]]; [left; exact H|right; exists "KPOINT"|right; exists "ENERGY"|right; exists "weight_tot"|discriminate]; cbn; auto.
  - intros [H|(h & Hh & H)]; [tauto|]. cbn in Hh. destruct Hh as [<-|[<-|[<-|[]]]]; tauto.
Qed.
Lemma orbital_spec fl so lines b f o : fat_open fl so lines = Ok b -> fat_frame fl lines = Ok f ->
  exists ns parts, orbital_dfs fl b o = Ok (ns, parts) /\ length parts = num_bands b /\
  (forall n, In n ns <-> In n (names f) /\ (occurs_in o n \/ exists h, In h head3 /\ occurs_in h n)) /\
  (forall row', In row' (concat parts) -> length row' = length ns) /\ length (concat parts) = length (body f).
Proof.
  intros O F. destruct (fat_open_inv _ _ _ _ O) as (L & _ & Two & _). pose proof (fat_rect _ _ _ F) as Rf.
  unfold orbital_dfs. rewrite L, F. cbn [bind].
  match goal with |- context[array_split ?r _] => set (rows := r) end.
  destruct (array_split rows (num_bands b)) as [parts|e] eqn:Es; [|unfold array_split in Es; destruct (num_bands b); [lia|discriminate]].
  cbn [bind]. eexists; exists parts. split; [reflexivity|]. destruct (array_split_spec _ _ _ Es) as (Lp & Cp & _). split; [exact Lp|]. split.
  - intros n. rewrite filter_In, orbital_column_iff. reflexivity.
  - rewrite Cp. unfold rows. split; [|apply map_length]. intros row' Hr. apply in_map_iff in Hr. destruct Hr as (row & <- & Hr).
    unfold rect in Rf. rewrite Forall_forall in Rf. specialize (Rf row Hr). rewrite map_length. clear -Rf.
    revert row Rf. generalize (names f). intros ns. induction ns as [|n ns IH]; intros [|x row] Rf; try discriminate; [reflexivity|].
    cbn [combine filter fst]. destruct (orbital_column o n); cbn [length]; rewrite IH by (cbn in Rf; lia); reflexivity.
Qed.

(** ** Units *)
Lemma map_nth_spec {A} (g : A -> A) u x v : map_nth g (length u) (u ++ x :: v) = u ++ g x :: v.
Proof. induction u as [|y u IH]; cbn; congruence. Qed.
Lemma units fl lines f : fat_frame fl lines = Ok f ->
  exists f0, read_csv fl (map split_ws (filter (fun l => negb (contains "BAND" l)) lines)) = Ok f0 /\ names f = names f0 /\
  exists a b, names f = a ++ "KPOINT" :: b /\ ~ In "KPOINT" a /\
  Forall2 (fun row row' => exists u x v, row = u ++ x :: v /\ length u = length a /\ row' = u ++ (x / (529177249 / 10 ^ 9))%R :: v) (body f0) (body f).
Proof.
  intros H. unfold fat_frame in H. destruct (read_csv fl _) as [f0|] eqn:E; [|discriminate]. cbn [bind] in H.
  destruct (column (names f0) "KPOINT") as [i|] eqn:C; [|discriminate]. cbn [bind] in H. injection H as <-. cbn [names body].
  exists f0. split; [reflexivity|]. split; [reflexivity|]. pose proof (column_lt _ _ _ C) as Lt. apply column_spec in C. destruct C as (a & b & En & Ha & <-).
  exists a, b. split; [exact En|]. split; [exact Ha|]. apply read_rect in E. unfold rect in E. revert E Lt. generalize (names f0). intros ns E Lt.
  induction E as [|row l Hr E IH]; cbn [map]; constructor; [|exact IH].
  destruct (nth_error row (length a)) as [x|] eqn:Ex; [|apply nth_error_None in Ex; lia].
  apply nth_error_split in Ex. destruct Ex as (u & v & -> & Hu). exists u, x, v. split; [reflexivity|]. split; [exact Hu|].
  rewrite <- Hu, map_nth_spec. unfold bohr. do 3 f_equal. lra.
Qed.

Lemma orbital_values fl so lines b f o : fat_open fl so lines = Ok b -> fat_frame fl lines = Ok f ->
  exists ns parts, orbital_dfs fl b o = Ok (ns, parts) /\
  Forall2 (fun row row' => picks (fun n => occurs_in o n \/ exists h, In h head3 /\ occurs_in h n) (names f) row ns row') (body f) (concat parts).
Proof.
  intros O F. destruct (fat_open_inv _ _ _ _ O) as (L & _ & Two & _). pose proof (fat_rect _ _ _ F) as Rf.
  unfold orbital_dfs. rewrite L, F. cbn [bind].
  match goal with |- context[array_split ?r _] => set (rows := r) end.
  destruct (array_split rows (num_bands b)) as [parts|e] eqn:Es; [|unfold array_split in Es; destruct (num_bands b); [lia|discriminate]].
  cbn [bind]. eexists; exists parts. split; [reflexivity|]. destruct (array_split_spec _ _ _ Es) as (_ & Cp & _).
  rewrite Cp. unfold rows. clear Es Cp rows. unfold rect in Rf. induction Rf as [|row l Lr Rf IH]; cbn [map]; constructor; [|exact IH].
  clear -Lr. revert row Lr. generalize (names f). intros ns. induction ns as [|n ns IH]; intros [|x row] Lr; try discriminate; [constructor|].
  cbn [combine filter fst]. destruct (orbital_column o n) eqn:E; cbn [map snd].
  - apply picks_yes; [apply orbital_column_iff, E|apply IH; cbn in Lr; lia].
  - apply picks_no; [rewrite <- orbital_column_iff; congruence|apply IH; cbn in Lr; lia].
Qed.

Lemma heading fl : open_dos fl [] = Err IndexError /\
  forall head rows, split_ws head <> [] -> split_ws head <> ["#"] ->
  (forall r, In r rows -> split_ws r <> [] /\ length (split_ws r) = length (drop_first "#" (split_ws head)) /\ exists v, mapM fl (split_ws r) = Ok v) ->
  exists f, open_dos fl (head :: rows) = Ok f /\ names f = drop_first "#" (split_ws head) /\
  Forall2 (fun r row => mapM fl (split_ws r) = Ok row) rows (body f).
Proof.
  split; [reflexivity|]. intros head rows H1 H2 H. unfold open_dos. rewrite read_csv_eq. cbn [filter].
  assert (Hd : fields (drop_first "#" (split_ws head)) = true).
  { destruct (split_ws head) as [|t [|u ts]]; [contradiction| |]; cbn [drop_first]; destruct (String.eqb_spec "#" t) as [<-|N]; try reflexivity. contradiction. }
  rewrite Hd. rewrite filter_all.
  2:{ intros x Hx. apply in_map_iff in Hx. destruct Hx as (r & <- & Hr). destruct (H r Hr) as [Hn _]. destruct (split_ws r); [contradiction|reflexivity]. }
  set (n := length (drop_first "#" (split_ws head))) in *.
  assert (E : exists out, mapM (parse fl n) (map split_ws rows) = Ok out /\ Forall2 (fun r row => mapM fl (split_ws r) = Ok row) rows out).
  { clear -H. induction rows as [|r rs IH]; [exists []; split; [reflexivity|constructor]|]. destruct (H r (or_introl eq_refl)) as (_ & L & v & Hv).
    destruct IH as (out & E & F); [intros; apply H; right; assumption|]. exists (v :: out). split; [|constructor; assumption].
    cbn [map mapM]. unfold parse at 1. rewrite L, Nat.eqb_refl, Hv. cbn [bind]. rewrite E. reflexivity. }
  destruct E as (out & E & F). rewrite E. cbn [bind]. eexists. split; [reflexivity|]. split; [reflexivity|exact F].
Qed.
