(** What is read from an arbitrary atom.config file. *)
From Verif Require Import Text MovementModel AtomConfigModel AtomConfigSpec AtomConfigProofs ExtractorSpec.

Lemma digit_of c : is_digit c = true <-> exists d, digit c d.
Proof.
  split.
  - destruct c as [[] [] [] [] [] [] [] []]; intros H; try discriminate H.
    all: try (exists 0%N; split; [reflexivity|reflexivity]). all: try (exists 1%N; split; [reflexivity|reflexivity]).
    all: try (exists 2%N; split; [reflexivity|reflexivity]). all: try (exists 3%N; split; [reflexivity|reflexivity]).
    all: try (exists 4%N; split; [reflexivity|reflexivity]). all: try (exists 5%N; split; [reflexivity|reflexivity]).
    all: try (exists 6%N; split; [reflexivity|reflexivity]). all: try (exists 7%N; split; [reflexivity|reflexivity]).
    all: try (exists 8%N; split; [reflexivity|reflexivity]). all: try (exists 9%N; split; [reflexivity|reflexivity]).
  - intros (d & L & ->). exact (digit_is_digit d L).
Qed.
Lemma digit_worth c d : digit c d -> N.of_nat (nat_of_ascii c - 48) = d.
Proof. intros (L & ->). exact (digit_value d L). Qed.

Lemma acc_snoc s c : forall a, digits_to_N_acc a (s +++ String c "") = (digits_to_N_acc a s * 10 + N.of_nat (nat_of_ascii c - 48))%N.
Proof. induction s as [|x s IH]; intros a; [reflexivity|]. cbn [append digits_to_N_acc]. apply IH. Qed.
Lemma all_digits_snoc s c : all_digits (s +++ String c "") = (all_digits s && is_digit c)%bool.
Proof. induction s as [|x s IH]; cbn [append all_digits]; [destruct (is_digit c); reflexivity|]. rewrite IH. destruct (is_digit x); reflexivity. Qed.
Lemma string_snoc s : s = "" \/ exists t c, s = t +++ String c "".
Proof.
  induction s as [|x s IH]; [left; reflexivity|right]. destruct IH as [->|(t & c & ->)].
  - exists "", x. reflexivity.
  - exists (String x t), c. reflexivity.
Qed.
Lemma length_snoc s c : String.length (s +++ String c "") = S (String.length s).
Proof. induction s as [|x s IH]; [reflexivity|]. cbn [append String.length]. rewrite IH. reflexivity. Qed.

Lemma parse_numeral t n : parse_int t = Ok n <-> numeral t n.
Proof.
  split.
  - unfold parse_int. destruct (negb (String.eqb t "") && all_digits t)%bool eqn:E; [|discriminate]. apply andb_prop in E as (E1 & E2).
    intros H. assert (n = digits_to_N t) as -> by congruence. clear H. assert (N0 : t <> "") by (intros ->; discriminate E1). clear E1.
    remember (String.length t) as k eqn:Ek. revert t Ek E2 N0. induction k as [k IH] using lt_wf_ind. intros t -> D N0.
    destruct (string_snoc t) as [->|(s & c & ->)]; [destruct N0; reflexivity|]. rewrite all_digits_snoc in D. apply andb_prop in D as (D1 & D2).
    apply digit_of in D2 as (d & Hd). unfold digits_to_N. rewrite acc_snoc, (digit_worth _ _ Hd). destruct s as [|x s'] eqn:Es.
    + cbn. destruct d; apply numeral_one; exact Hd.
    + rewrite <- Es in *. rewrite N.mul_comm. apply numeral_more; [|exact Hd]. refine (IH (String.length s) _ s eq_refl D1 _).
      * rewrite length_snoc. lia.
      * rewrite Es. discriminate.
  - intros H. assert (X : t <> "" /\ all_digits t = true /\ digits_to_N t = n).
    { induction H as [c d Hd|s n c d H (I1 & I2 & I3) Hd].
      - split; [discriminate|]. split.
        + cbn. rewrite (proj2 (digit_of c) (ex_intro _ d Hd)). reflexivity.
        + unfold digits_to_N. cbn [digits_to_N_acc]. rewrite (digit_worth _ _ Hd). apply N.add_0_l.
      - split; [destruct s; discriminate|]. split.
        + rewrite all_digits_snoc, I2, (proj2 (digit_of c) (ex_intro _ d Hd)). reflexivity.
        + unfold digits_to_N in *. rewrite acc_snoc, (digit_worth _ _ Hd), I3. rewrite N.mul_comm. reflexivity. }
    destruct X as (X1 & X2 & X3). unfold parse_int. rewrite X2, X3. apply String.eqb_neq in X1. rewrite X1. reflexivity.
Qed.

Lemma mapM_iff {A B} (f : A -> result B) l ys : mapM f l = Ok ys <-> Forall2 (fun x y => f x = Ok y) l ys.
Proof.
  split.
  - revert ys. induction l as [|x l IH]; intros ys H; cbn [mapM] in H.
    + assert (ys = []) as -> by congruence. constructor.
    + destruct (f x) as [y|e] eqn:E; [|discriminate H]. cbn [bind] in H. destruct (mapM f l) as [zs|e]; [|discriminate H]. cbn [bind] in H.
      assert (ys = y :: zs) as -> by congruence. constructor; [exact E|]. apply IH. reflexivity.
  - induction 1 as [|x y l ys E F2 IH]; [reflexivity|]. cbn [mapM]. rewrite E. cbn [bind]. rewrite IH. reflexivity.
Qed.
Lemma bind_iff {A B} (r : result A) (f : A -> result B) y : bind r f = Ok y <-> exists x, r = Ok x /\ f x = Ok y.
Proof.
  split.
  - destruct r as [x|e]; [|discriminate]. cbn [bind]. intros H. exists x. split; [reflexivity|exact H].
  - intros (x & -> & H). exact H.
Qed.

Lemma first_word row n : bind (get (split_ws row) 0) parse_int = Ok n <-> begins_with row n.
Proof.
  rewrite bind_iff. split.
  - intros (w & E & H). destruct (split_ws row) as [|w' ws] eqn:Ew; [discriminate E|]. cbn in E. assert (w' = w) as -> by congruence.
    exists w, ws. split; [exact Ew|]. apply parse_numeral. exact H.
  - intros (w & ws & -> & H). exists w. split; [reflexivity|]. apply parse_numeral. exact H.
Qed.

Lemma locate_first kw ls : forall k i, get (locate_lines_from k kw ls) 0 = Ok i <->
  exists pre h post, ls = pre ++ h :: post /\ heads kw h /\ Forall (fun l => ~ heads kw l) pre /\ i = k + length pre + 1.
Proof.
  induction ls as [|l ls IH]; intros k i; cbn [locate_lines_from].
  - split; [discriminate|]. intros ([|? ?] & h & post & E & _); discriminate E.
  - destruct (contains kw (upper l)) eqn:C.
    + cbn. split.
      * intros H. exists [], l, ls. repeat split; [exact C|constructor|]. cbn. assert (i = S k) as -> by congruence. lia.
      * intros (pre & h & post & E & Hh & Hp & ->). destruct pre as [|p pre].
        -- cbn. f_equal. lia.
        -- cbn in E. assert (l = p) as -> by congruence. inversion Hp as [|? ? Hl Hr]. destruct Hl. exact C.
    + rewrite IH. split.
      * intros (pre & h & post & -> & Hh & Hp & ->). exists (l :: pre), h, post. repeat split; [exact Hh| |cbn; lia].
        constructor; [|exact Hp]. unfold heads. rewrite C. discriminate.
      * intros (pre & h & post & E & Hh & Hp & ->). destruct pre as [|p pre].
        -- cbn in E. assert (l = h) as -> by congruence. unfold heads in Hh. congruence.
        -- cbn in E. injection E as -> ->. inversion Hp; subst. exists pre, h, post. repeat split; [exact Hh|assumption|cbn; lia].
Qed.

Lemma slice_after {A} (pre : list A) h post n i : i = 0 + length pre + 1 -> slice i (i + n) (pre ++ h :: post) = firstn n post.
Proof.
  intros ->. unfold slice. replace (0 + length pre + 1 + n - (0 + length pre + 1)) with n by lia. f_equal.
  replace (0 + length pre + 1) with (length (pre ++ [h])) by (rewrite app_length; cbn; lia).
  change (h :: post) with ([h] ++ post). rewrite app_assoc, skipn_app, skipn_all, Nat.sub_diag. reflexivity.
Qed.

(** The rows after the first heading. *)
Lemma block_iff {B} kw n file (g : list string -> result B) y :
  bind (get (locate_lines kw file) 0) (fun i => g (slice i (i + n) (file_lines file))) = Ok y <->
  exists rows, block_of kw n (file_lines file) rows /\ g rows = Ok y.
Proof.
  rewrite bind_iff. unfold locate_lines. split.
  - intros (i & E & H). apply locate_first in E as (pre & h & post & E & Hh & Hp & Ei). rewrite E in H. rewrite (slice_after pre h post n i Ei) in H.
    exists (firstn n post). split; [|exact H]. rewrite E. exists pre, h, (skipn n post). rewrite firstn_skipn. repeat split; [exact Hh|exact Hp|].
    destruct (le_lt_dec n (length post)) as [L|L].
    + left. apply firstn_length_le. exact L.
    + right. split; [rewrite firstn_length; lia|]. apply skipn_all2. lia.
  - intros (rows & (pre & h & post & E & Hh & Hp & L) & H). exists (0 + length pre + 1). split.
    + apply locate_first. exists pre, h, (rows ++ post). repeat split; assumption.
    + rewrite E, (slice_after pre h _ n _ eq_refl). destruct L as [L|(L & ->)].
      * rewrite <- L, firstn_app, firstn_all, Nat.sub_diag, app_nil_r. exact H.
      * rewrite app_nil_r, firstn_all2 by lia. exact H.
Qed.

Section Read.
Variable F : Type.
Variable p : string -> result F.

Lemma reads_iff ts xs : mapM p ts = Ok xs <-> reads p ts xs.
Proof. apply mapM_iff. Qed.
Lemma rows_iff (f : string -> list string) rows xss : mapM (fun row => mapM p (f row)) rows = Ok xss <-> Forall2 (fun row xs => reads p (f row) xs) rows xss.
Proof.
  rewrite mapM_iff. split; intros H; induction H; constructor; try assumption; apply reads_iff; assumption.
Qed.
Lemma Forall2_iff {A B} (P Q : A -> B -> Prop) l m : (forall x y, P x y <-> Q x y) -> Forall2 P l m <-> Forall2 Q l m.
Proof. intros H. split; intros K; induction K; constructor; try assumption; apply H; assumption. Qed.

Lemma getline_after (pre : list string) h post k : getline (pre ++ h :: post) (length pre + 1 + S k) = nth k post "".
Proof.
  replace (length pre + 1 + S k) with (S (length pre + S k)) by lia. unfold getline. rewrite app_nth2 by lia.
  replace (length pre + S k - length pre) with (S k) by lia. reflexivity.
Qed.

Lemma basis_iff file b : ac_get_basis F p (file_lines file) file = Ok b <->
  exists pre h post r0 r1 r2, file_lines file = pre ++ h :: post /\ heads "LATTICE" h /\ Forall (fun l => ~ heads "LATTICE" l) pre /\
  reads p (words 0 3 (nth 0 post "")) r0 /\ reads p (words 0 3 (nth 1 post "")) r1 /\ reads p (words 0 3 (nth 2 post "")) r2 /\ b = r0 ++ r1 ++ r2.
Proof.
  unfold ac_get_basis. rewrite bind_iff. unfold locate_lines. split.
  - intros (i & E & H). apply locate_first in E as (pre & h & post & E & Hh & Hp & ->). apply bind_iff in H as (rows & M & H).
    rewrite E in M. apply mapM_iff in M. inversion M as [|? r0 ? ? M0 M']; subst. inversion M' as [|? r1 ? ? M1 M'']; subst. inversion M'' as [|? r2 ? ? M2 M3]; subst.
    inversion M3; subst. rewrite (getline_after pre h post 0) in M0. rewrite (getline_after pre h post 1) in M1. rewrite (getline_after pre h post 2) in M2.
    exists pre, h, post, r0, r1, r2. repeat split; [exact E|exact Hh|exact Hp|apply reads_iff; exact M0|apply reads_iff; exact M1|apply reads_iff; exact M2|].
    cbn [concat] in H. rewrite app_nil_r in H. congruence.
  - intros (pre & h & post & r0 & r1 & r2 & E & Hh & Hp & R0 & R1 & R2 & ->). exists (length pre + 1). split.
    + apply locate_first. exists pre, h, post. repeat split; assumption.
    + apply bind_iff. exists [r0; r1; r2]. split; [|cbn [concat]; rewrite app_nil_r; reflexivity]. rewrite E. apply mapM_iff.
      constructor; [|constructor; [|constructor; [|constructor]]].
      * rewrite (getline_after pre h post 0). apply reads_iff. exact R0.
      * rewrite (getline_after pre h post 1). apply reads_iff. exact R1.
      * rewrite (getline_after pre h post 2). apply reads_iff. exact R2.
Qed.

Lemma coords_iff n file c : ac_get_coords F p n file = Ok c <->
  exists rows, block_of "POSITION" (N.to_nat n) (file_lines file) rows /\
  exists k xss, Forall2 (fun row xs => reads p (words 1 4 row) xs /\ length xs = k) rows xss /\ c = concat xss.
Proof.
  unfold ac_get_coords.
  rewrite (block_iff "POSITION" (N.to_nat n) file (fun l => bind (mapM (fun row => mapM p (slice 1 4 (split_ws row))) l)
    (fun rows => match rows with [] => Ok [] | r :: rs => if forallb (fun x => length x =? length r) rs then Ok (concat rows) else Err ValueError end))).
  assert (X : forall rows, bind (mapM (fun row => mapM p (slice 1 4 (split_ws row))) rows)
    (fun rows => match rows with [] => Ok [] | r :: rs => if forallb (fun x => length x =? length r) rs then Ok (concat rows) else Err ValueError end) = Ok c <->
    exists k xss, Forall2 (fun row xs => reads p (words 1 4 row) xs /\ length xs = k) rows xss /\ c = concat xss).
  { intros rows. rewrite bind_iff. split.
    - intros (xss & M & H). apply (rows_iff (words 1 4)) in M. destruct xss as [|r rs].
      + exists 0, []. inversion M; subst. split; [constructor|]. cbn. congruence.
      + destruct (forallb (fun x => length x =? length r) rs) eqn:Fb; [|discriminate H]. exists (length r), (r :: rs). split; [|congruence].
        assert (A : Forall (fun xs => length xs = length r) (r :: rs)).
        { constructor; [reflexivity|]. apply Forall_forall. intros x Ix. rewrite forallb_forall in Fb. apply Nat.eqb_eq. apply Fb. exact Ix. }
        revert A. generalize (length r). intros k A. clear H Fb. induction M as [|row xs rows' xss' R M IH]; [constructor|]. inversion A; subst. constructor; [split; [exact R|reflexivity]|]. apply IH. assumption.
    - intros (k & xss & M & ->). exists xss. split.
      + apply (rows_iff (words 1 4)). clear -M. induction M as [|? ? ? ? (R & _) M IH]; constructor; assumption.
      + destruct xss as [|r rs]; [reflexivity|]. assert (A : Forall (fun xs => length xs = k) (r :: rs)) by (clear -M; induction M as [|? ? ? ? (_ & L) M IH]; constructor; assumption).
        inversion A as [|? ? A0 A1]; subst. assert (Fb : forallb (fun x => length x =? length r) rs = true).
        { apply forallb_forall. intros x Ix. apply Nat.eqb_eq. rewrite Forall_forall in A1. apply A1. exact Ix. }
        rewrite Fb. reflexivity. }
  split; intros (rows & B & H); exists rows; (split; [exact B|]); apply X; exact H.
Qed.

(** Everything that can be read. *)
Lemma open_iff file x : ac_open F p (file_lines file) file = Ok x <->
  begins_with (nth 0 (file_lines file) "") (x_num F x) /\
  (exists pre h post r0 r1 r2, file_lines file = pre ++ h :: post /\ heads "LATTICE" h /\ Forall (fun l => ~ heads "LATTICE" l) pre /\
   reads p (words 0 3 (nth 0 post "")) r0 /\ reads p (words 0 3 (nth 1 post "")) r1 /\ reads p (words 0 3 (nth 2 post "")) r2 /\ x_basis F x = r0 ++ r1 ++ r2) /\
  exists rows k xss, block_of "POSITION" (N.to_nat (x_num F x)) (file_lines file) rows /\ Forall2 begins_with rows (x_types F x) /\
  Forall2 (fun row xs => reads p (words 1 4 row) xs /\ length xs = k) rows xss /\ x_coords F x = concat xss.
Proof.
  assert (T : forall n t, ac_get_types n file = Ok t <-> exists rows, block_of "POSITION" (N.to_nat n) (file_lines file) rows /\ Forall2 begins_with rows t).
  { intros n t. unfold ac_get_types. rewrite (block_iff "POSITION" (N.to_nat n) file (mapM (fun row => bind (get (split_ws row) 0) parse_int))).
    split; intros (rows & B & H); exists rows; (split; [exact B|]).
    - apply mapM_iff in H. refine (proj1 (Forall2_iff _ _ _ _ _) H). intros row z. apply first_word.
    - apply mapM_iff. refine (proj2 (Forall2_iff _ _ _ _ _) H). intros row z. apply first_word. }
  assert (U : forall n r1 r2, block_of "POSITION" n (file_lines file) r1 -> block_of "POSITION" n (file_lines file) r2 -> r1 = r2).
  { intros n r1 r2 B1 B2. assert (Y1 := proj2 (block_iff "POSITION" n file Ok r1) (ex_intro _ r1 (conj B1 eq_refl))).
    assert (Y2 := proj2 (block_iff "POSITION" n file Ok r2) (ex_intro _ r2 (conj B2 eq_refl))). congruence. }
  unfold ac_open. split.
  - intros H. apply bind_iff in H as (n & H1 & H). apply bind_iff in H as (b & H2 & H). apply bind_iff in H as (t & H3 & H). apply bind_iff in H as (c & H4 & H).
    assert (x = {| x_num := n; x_basis := b; x_types := t; x_coords := c |}) as -> by congruence. cbn [x_num x_basis x_types x_coords]. clear H.
    split; [|split].
    + unfold ac_get_num_atoms in H1. apply first_word in H1. exact H1.
    + apply basis_iff. exact H2.
    + apply T in H3 as (rows & B & H3). apply coords_iff in H4 as (rows' & B' & k & xss & H4 & ->). assert (rows' = rows) as -> by (exact (U _ _ _ B' B)).
      exists rows, k, xss. repeat split; assumption.
  - destruct x as [n b t c]. cbn [x_num x_basis x_types x_coords]. intros (H1 & H2 & rows & k & xss & B & H3 & H4 & ->).
    apply bind_iff. exists n. split; [unfold ac_get_num_atoms; apply first_word; exact H1|].
    apply bind_iff. exists b. split; [apply basis_iff; exact H2|].
    apply bind_iff. exists t. split; [apply T; exists rows; split; assumption|].
    apply bind_iff. exists (concat xss). split; [apply coords_iff; exists rows; split; [exact B|]; exists k, xss; split; [exact H4|reflexivity]|]. reflexivity.
Qed.

(** A list of moments that is too short. *)
Lemma magmoms_short fE ff f2 c : (length (magmom F c) < length (sites F c) -> to_text F fE ff f2 c true = Err IndexError) /\
  (length (sites F c) <= length (magmom F c) -> exists file, to_text F fE ff f2 c true = Ok file).
Proof.
  assert (X : forall ss ms, (length ms < length ss -> magmom_lines F f2 ss ms = Err IndexError) /\ (length ss <= length ms -> exists r, magmom_lines F f2 ss ms = Ok r)).
  { induction ss as [|s ss IH]; intros ms; [split; [cbn; lia|intros _; eexists; reflexivity]|]. destruct ms as [|m ms].
    - split; [reflexivity|cbn; lia].
    - cbn [magmom_lines length]. destruct (IH ms) as (I1 & I2). split; intros L.
      + rewrite I1 by lia. reflexivity.
      + destruct I2 as (r & ->); [lia|]. eexists. reflexivity. }
  destruct (X (sites F c) (magmom F c)) as (X1 & X2). unfold to_text. destruct (lat F c) as ((r0 & r1) & r2). split; intros L.
  - rewrite X1 by exact L. reflexivity.
  - destruct (X2 L) as (r & ->). eexists. reflexivity.
Qed.
End Read.

(** A first line without a number. *)
Lemma first_line (F : Type) (p : string -> result F) lc file :
  (split_ws (nth 0 lc "") = [] -> ac_open F p lc file = Err IndexError) /\
  (forall w ws, split_ws (nth 0 lc "") = w :: ws -> (forall n, ~ numeral w n) -> ac_open F p lc file = Err ValueError).
Proof.
  split.
  - intros E. unfold ac_open, ac_get_num_atoms, getline. rewrite E. reflexivity.
  - intros w ws E Hw. unfold ac_open, ac_get_num_atoms, getline. rewrite E. unfold get. cbn [nth_error bind]. destruct (parse_int w) as [n|e] eqn:En; [exfalso; apply (Hw n); apply parse_numeral; exact En|]. unfold parse_int in En. destruct (negb (w =? "")%string && all_digits w); [discriminate|]. cbn [bind]. congruence.
Qed.
