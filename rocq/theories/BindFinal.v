(** The Python binding of the neighbour list: results, wrong arguments and memory. *)
From Verif Require Import Vec SeSpec NbModel NbSpec NbMlffModel NbMlffSpec NbProofs NbGlue NbFinal BindModel BindSpec BindProofs.
Local Open Scope Z_scope.

Lemma result_ok std_sort : sort_contract std_sort -> forall A B C zs xs is_cart c, meant A B C zs xs is_cart c -> zs <> [] -> proper c -> wrapped c -> faces_positive c ->
  forall rcut p0 p1 p2 rest sort umax, (0 < rcut)%R ->
  exists nbrs, neighbour_table rcut (p0, p1, p2) c sort nbrs /\
  (Forall (fun l => (length l <= umax)%nat) nbrs ->
   exists r, find_info4mlff_py std_sort (row_major [A; B; C]) (length zs) zs (row_major xs) rcut (p0 :: p1 :: p2 :: rest) umax sort is_cart = Ok r /\ holds c umax nbrs r).
Proof.
  intros Hsort A B C zs xs is_cart c Hm Hz Hp Hw Hf rcut p0 p1 p2 rest sort umax Hr.
  assert (Lx : length xs = length zs). { rewrite <- (meant_len A B C zs xs is_cart c Hm). destruct Hm as (_ & _ & _ & E & _). destruct Hp as [Hn _]. rewrite <- E. symmetry. exact Hn. }
  assert (Nc : coords c <> []). { intros E. assert (Q := meant_len A B C zs xs is_cart c Hm). rewrite E in Q. destruct zs; [contradiction|]. cbn in *. lia. }
  assert (Er := read_ok A B C zs xs is_cart Lx). assert (Hc := meant_of A B C zs xs is_cart). unfold find_info4mlff_py. rewrite Er. cbn [bind].
  assert (Ec : exists o, c = {| bA := A; bB := B; bC := C; numbers := zs; coords := coords (cell_of A B C zs xs is_cart); origin := o |}).
  { destruct c as [a b d ns cs o]. destruct Hm as (E1 & E2 & E3 & E4 & E5), Hc as (_ & _ & _ & _ & E6). cbn [bA bB bC numbers coords] in *. exists o. subst a b d ns. rewrite E5, <- E6. reflexivity. }
  destruct Ec as (o & ->). set (d := cell_of A B C zs xs is_cart) in *.
  destruct (table_ok std_sort rcut (p0, p1, p2) d Hsort Hr Hp Hw Hf Nc sort umax) as (sup & lists & nbrs & El & Ll & Ht & Hi). exists nbrs. split; [exact Ht|]. intros Hfit. destruct (Hi Hfit) as (info & Ei & Hh).
  unfold get. cbn [nth_error bind]. rewrite El. cbn [bind fst snd]. rewrite Ei. cbn [bind]. eexists. split; [reflexivity|].
  assert (Ln : length (coords d) = length zs). { rewrite (meant_len A B C zs xs is_cart d Hc). exact Lx. } cbv zeta in Hh. rewrite Ln in Hh. exact Hh.
Qed.

Lemma no_atoms std_sort lattice coords rcut p0 p1 p2 rest umax sort is_cart : (9 <= length lattice)%nat ->
  find_info4mlff_py std_sort lattice 0 [] coords rcut (p0 :: p1 :: p2 :: rest) umax sort is_cart = Err AssertionError.
Proof.
  intros H. unfold find_info4mlff_py, read_structure, read_vec. do 9 (destruct lattice as [|? lattice]; [cbn in H; lia|]). unfold get. cbn [Nat.mul Nat.add nth_error bind seq mapM]. unfold lists_of, num_atoms. cbn [NbModel.coords]. destruct is_cart; reflexivity.
Qed.

Lemma get_short {A} (l : list A) i : (length l <= i)%nat -> get l i = Err IndexError.
Proof. intros H. unfold get. rewrite (proj2 (nth_error_None l i) H). reflexivity. Qed.
Lemma read_short buf i : (length buf < i * 3 + 3)%nat -> read_vec buf i = Err IndexError.
Proof.
  intros H. unfold read_vec. unfold get at 1. destruct (nth_error buf (i * 3)); [|reflexivity]. cbn [bind]. unfold get at 1. destruct (nth_error buf (i * 3 + 1)); [|reflexivity]. cbn [bind]. rewrite get_short by lia. reflexivity.
Qed.
Lemma mapM_last_bad {A} (f : nat -> result A) n : (0 < n)%nat -> f (n - 1)%nat = Err IndexError -> (forall i e, f i = Err e -> e = IndexError) -> mapM f (seq 0 n) = Err IndexError.
Proof.
  intros Hn Hf He. assert (G : forall l, In (n - 1)%nat l -> mapM f l = Err IndexError).
  { induction l as [|i l IH]; intros I; [destruct I|]. cbn [mapM]. destruct (f i) as [x|e] eqn:E; [|rewrite (He i e E); reflexivity]. cbn [bind]. destruct I as [->|I]; [congruence|]. rewrite (IH I). reflexivity. }
  apply G. apply in_seq. lia.
Qed.
Lemma read_vec_err buf i e : read_vec buf i = Err e -> e = IndexError.
Proof. unfold read_vec, get. destruct (nth_error buf (i * 3)); cbn; [|congruence]. destruct (nth_error buf (i * 3 + 1)); cbn; [|congruence]. destruct (nth_error buf (i * 3 + 2)); cbn; congruence. Qed.
Lemma get_err {A} (l : list A) i e : get l i = Err e -> e = IndexError.
Proof. unfold get. destruct (nth_error l i); congruence. Qed.
Lemma too_short std_sort lattice n numbers coords rcut pbc umax sort is_cart : (length lattice < 9 \/ length numbers < n \/ length coords < 3 * n)%nat ->
  find_info4mlff_py std_sort lattice n numbers coords rcut pbc umax sort is_cart = Err IndexError.
Proof.
  intros H. unfold find_info4mlff_py. replace (read_structure lattice n numbers coords is_cart) with (@Err cell IndexError); [reflexivity|]. symmetry. unfold read_structure.
  destruct (read_vec lattice 0) as [A|e] eqn:E0; [|rewrite (read_vec_err _ _ _ E0); reflexivity]. cbn [bind].
  destruct (read_vec lattice 1) as [B|e] eqn:E1; [|rewrite (read_vec_err _ _ _ E1); reflexivity]. cbn [bind].
  destruct (read_vec lattice 2) as [C|e] eqn:E2; [|rewrite (read_vec_err _ _ _ E2); reflexivity]. cbn [bind].
  destruct H as [H|H]; [rewrite read_short in E2 by lia; discriminate|].
  assert (Me : forall l e, mapM (get numbers) l = Err e -> e = IndexError). { induction l as [|i l IH]; intros e; cbn [mapM]; [discriminate|]. destruct (get numbers i) eqn:Ei; [|cbn [bind]; intros Q; apply (get_err numbers i); congruence]. cbn [bind]. destruct (mapM (get numbers) l) eqn:Em; cbn [bind]; [discriminate|]. intros Q. apply IH. congruence. }
  destruct H as [H|H].
  - rewrite mapM_last_bad; [reflexivity|lia|apply get_short; lia|apply get_err].
  - destruct (mapM (get numbers) (seq 0 n)) as [zs|e] eqn:En; [|rewrite (Me _ _ En); reflexivity]. cbn [bind]. rewrite mapM_last_bad; [reflexivity|lia|apply read_short; lia|apply read_vec_err].
Qed.

(** *** Atomic numbers as 64 bit integers *)
Lemma words_len zs : length (words64 zs) = (2 * length zs)%nat.
Proof. induction zs as [|z zs IH]; [reflexivity|]. unfold words64. cbn [flat_map]. rewrite app_length. fold (words64 zs). rewrite IH. cbn. lia. Qed.
Lemma words_nth zs i z : nth_error zs (i / 2) = Some z -> nth_error (words64 zs) i = Some (if Nat.even i then z else 0).
Proof.
  revert i. induction zs as [|y zs IH]; intros i H; [destruct (i / 2)%nat; discriminate|]. destruct i as [|[|i]]; [cbn in H; injection H as ->; reflexivity|cbn in H; reflexivity|].
  assert (E : (S (S i) / 2 = S (i / 2))%nat) by exact (Nat.div_add_l 1 2 i ltac:(lia)). rewrite E in H. cbn [nth_error] in H. unfold words64. cbn [flat_map]. fold (words64 zs). cbn [app nth_error]. rewrite (IH i H). reflexivity.
Qed.
Lemma get_prefix {A} (l : list A) n : (n <= length l)%nat -> mapM (get l) (seq 0 n) = Ok (firstn n l).
Proof.
  intros H. assert (G : forall k r, (forall j x, nth_error r j = Some x -> nth_error l (k + j) = Some x) -> mapM (get l) (seq k (length r)) = Ok r).
  { intros k r. revert k. induction r as [|x r IH]; intros k Hr; [reflexivity|]. cbn [length seq mapM]. unfold get at 1. assert (H0 := Hr 0%nat x eq_refl). rewrite Nat.add_0_r in H0. rewrite H0. cbn [bind]. rewrite IH; [reflexivity|]. intros j y Hj. replace (S k + j)%nat with (k + S j)%nat by lia. apply Hr. exact Hj. }
  assert (L : length (firstn n l) = n) by (rewrite firstn_length; lia). rewrite <- L at 1. apply G. intros j x Hj. cbn [Nat.add]. rewrite <- (firstn_skipn n l), nth_error_app1; [exact Hj|]. apply nth_error_Some. congruence.
Qed.
Lemma int64 std_sort : sort_contract std_sort -> forall A B C zs xs is_cart c, meant A B C zs xs is_cart c -> zs <> [] -> proper c -> wrapped c -> faces_positive c ->
  forall rcut p0 p1 p2 rest sort umax, (0 < rcut)%R ->
  exists nbrs, neighbour_table rcut (p0, p1, p2) c sort nbrs /\
  (Forall (fun l => (length l <= umax)%nat) nbrs ->
   exists r, find_info4mlff_py std_sort (row_major [A; B; C]) (length zs) (words64 zs) (row_major xs) rcut (p0 :: p1 :: p2 :: rest) umax sort is_cart = Ok r /\
   forall i z, (i < length zs)%nat -> nth_error zs (i / 2) = Some z -> elem1 (r_types r) (length zs) i (if Nat.even i then z else 0)).
Proof.
  intros Hsort A B C zs xs is_cart c Hm Hz Hp Hw Hf rcut p0 p1 p2 rest sort umax Hr. set (ws := firstn (length zs) (words64 zs)).
  assert (Lw : length ws = length zs) by (unfold ws; rewrite firstn_length, words_len; lia).
  set (c' := {| bA := bA c; bB := bB c; bC := bC c; numbers := ws; coords := coords c; origin := origin c |}).
  assert (Ezs : numbers c = zs) by (destruct Hm as (_ & _ & _ & E & _); exact E).
  assert (Hm' : meant A B C ws xs is_cart c') by (destruct Hm as (E1 & E2 & E3 & _ & E5); unfold c'; repeat split; assumption).
  assert (Hp' : proper c') by (destruct Hp as [P1 P2]; split; [unfold c'; cbn [numbers coords]; rewrite Lw, <- P1, Ezs; reflexivity|exact P2]).
  destruct (result_ok std_sort Hsort A B C ws xs is_cart c' Hm' ltac:(intros E; apply Hz; rewrite E in Lw; destruct zs; [reflexivity|discriminate]) Hp' Hw Hf rcut p0 p1 p2 rest sort umax Hr) as (nbrs & Ht & Hi).
  exists nbrs. split; [exact Ht|]. intros Hfit. destruct (Hi Hfit) as (r & Er & Hh). exists r. split.
  - rewrite <- Er. unfold find_info4mlff_py, read_structure. rewrite Lw. rewrite (get_prefix (words64 zs)) by (rewrite words_len; lia). rewrite (get_prefix ws) by lia. fold ws. assert (Ew : firstn (length zs) ws = ws) by (rewrite <- Lw; apply firstn_all). rewrite Ew. reflexivity.
  - intros i z Hi' Hzi. destruct Hh as (_ & _ & Hty & _). assert (Ln : length (coords c') = length zs) by (unfold c'; cbn [coords]; destruct Hp as [P1 _]; rewrite <- P1, Ezs; reflexivity). rewrite Ln in Hty. apply Hty. unfold c'. cbn [numbers]. assert (Q := words_nth zs i z Hzi). rewrite <- (firstn_skipn (length zs) (words64 zs)) in Q. fold ws in Q. rewrite nth_error_app1 in Q by (rewrite Lw; exact Hi'). exact Q.
Qed.

(** *** Column by column *)
Lemma fortran_lattice A B C : column_major [A; B; C] = row_major [(vx A, vx B, vx C); (vy A, vy B, vy C); (vz A, vz B, vz C)].
Proof. destruct A as [[? ?] ?], B as [[? ?] ?], C as [[? ?] ?]. reflexivity. Qed.

(** *** Memory *)
Lemma keep_all (l : list (nat * nat)) b : (forall e, In e l -> fst e <> b) -> filter (fun e => negb (fst e =? b)%nat) l = l.
Proof. induction l as [|e l IH]; intros H; [reflexivity|]. cbn [filter]. rewrite (proj2 (Nat.eqb_neq (fst e) b)) by (apply H; left; reflexivity). cbn [negb]. rewrite IH by (intros x Hx; apply H; right; exact Hx). reflexivity. Qed.
Lemma call_ok n umax m : sane m -> call_memory n umax m =
  Ok ([ {| a_block := next m; a_owns := true |}; {| a_block := S (next m); a_owns := true |}; {| a_block := S (S (next m)); a_owns := false |};
        {| a_block := S (S (S (next m))); a_owns := true |}; {| a_block := S (S (S (S (next m)))); a_owns := true |} ],
      {| live := (S (S (S (S (next m)))), 4 * n)%nat :: (S (S (S (next m))), 8 * n * umax * 3)%nat :: (S (S (next m)), 4 * n * umax)%nat :: (S (next m), 4 * n)%nat :: (next m, 4 * n)%nat :: live m;
         next := (10 + next m)%nat |}).
Proof.
  intros [_ Hs]. unfold call_memory, malloc. cbn [next live]. set (b := next m) in *. set (sz1 := (4 * n)%nat). set (sz2 := (4 * n * umax)%nat). set (sz3 := (8 * n * umax * 3)%nat).
  assert (K : forall k, (b <= k)%nat -> filter (fun e => negb (fst e =? k)%nat) (live m) = live m). { intros k Hk. apply keep_all. intros [x s] I E. apply Hs in I. cbn in E. lia. }
  replace (forallb _ _) with true.
  2:{ symmetry. apply forallb_forall. intros u I. unfold has_room. apply existsb_exists. cbn [live]. cbn [In] in I.
      repeat (destruct I as [<-|I]; [cbn [fst snd]; match goal with |- exists x, In x ?l /\ ((_ =? ?k)%nat && _)%bool = _ => let rec pick l := match l with (k, ?v) :: _ => exists (k, v) | _ :: ?r => pick r end in pick l end;
        (split; [cbn [In]; auto 12|cbn [fst snd]; rewrite Nat.eqb_refl; apply Nat.leb_le; unfold sz1, sz2, sz3; lia])|]). destruct I. }
  cbn [negb]. unfold free. cbn [live next existsb filter fst].
  repeat (rewrite ?Nat.eqb_refl; match goal with |- context [(?x =? ?y)%nat] => rewrite (proj2 (Nat.eqb_neq x y)) by lia end; cbn [orb negb live next existsb filter fst bind]).
  rewrite ?Nat.eqb_refl. cbn [orb negb live next existsb filter fst bind]. rewrite !K by lia. reflexivity.
Qed.
Lemma drop_ok n umax m : sane m -> exists arrays m1 m2 a, call_memory n umax m = Ok (arrays, m1) /\ drop arrays m1 = Ok m2 /\ nth_error arrays 2 = Some a /\
  live m2 = (a_block a, (4 * n * umax)%nat) :: live m /\ sane m2.
Proof.
  intros Hm. assert (Hs := proj2 Hm). rewrite (call_ok n umax m Hm). do 2 eexists. cbn [nth_error]. eexists. eexists. split; [reflexivity|]. set (sz1 := (4 * n)%nat). set (sz2 := (4 * n * umax)%nat). set (sz3 := (8 * n * umax * 3)%nat).
  set (b := next m) in *. assert (K : forall k, (b <= k)%nat -> filter (fun e => negb (fst e =? k)%nat) (live m) = live m). { intros k Hk. apply keep_all. intros [x s] I E. apply Hs in I. cbn in E. lia. }
  split.
  { cbn [drop a_owns a_block]. unfold free. cbn [live next existsb filter fst].
    repeat (rewrite ?Nat.eqb_refl; match goal with |- context [(?x =? ?y)%nat] => rewrite (proj2 (Nat.eqb_neq x y)) by lia end; cbn [orb negb live next existsb filter fst bind]).
    rewrite ?Nat.eqb_refl. cbn [orb negb live next existsb filter fst bind]. rewrite !K by lia. reflexivity. }
  split; [reflexivity|]. cbn [live a_block]. split; [reflexivity|]. split; cbn [live next map fst].
  - constructor; [|apply Hm]. intros I. apply in_map_iff in I. destruct I as ([x s] & E & I). apply Hs in I. cbn in E. lia.
  - intros x s [E|I]; [injection E as <- _; lia|apply Hs in I; lia].
Qed.
Lemma calls_ok ns m : sane m -> exists m', calls ns m = Ok m' /\ sane m' /\ bytes (live m') = (bytes (live m) + fold_right (fun nu t => (4 * fst nu * snd nu + t)%nat) 0%nat ns)%nat.
Proof.
  revert m. induction ns as [|[n umax] ns IH]; intros m Hm; [exists m; split; [reflexivity|]; split; [exact Hm|cbn; lia]|]. destruct (drop_ok n umax m Hm) as (arrays & m1 & m2 & a & E1 & E2 & _ & El & Hs). cbn [calls]. rewrite E1. cbn [bind fst snd]. rewrite E2. cbn [bind]. destruct (IH m2 Hs) as (m' & E' & Hs' & Eb). exists m'. split; [exact E'|]. split; [exact Hs'|]. rewrite Eb, El. cbn [bytes fold_right fst snd]. set (f := (4 * n * umax)%nat). lia.
Qed.

(** *** Cases *)
Lemma case_meant : meant (1, 0, 0)%R (0, 1, 0)%R (0, 0, 1)%R [1; 8] [(1 / 2, 0, 0)%R; (2 / 5, 0, 0)%R] false
  {| bA := (1, 0, 0)%R; bB := (0, 1, 0)%R; bC := (0, 0, 1)%R; numbers := [1; 8]; coords := [(1 / 2, 0, 0)%R; (2 / 5, 0, 0)%R]; origin := (0, 0, 0)%R |}.
Proof.
  unfold meant. cbn [bA bB bC numbers coords map]. repeat (split; [reflexivity|]). unfold comb, vadd, vscale, vx, vy, vz. cbn [fst snd]. apply (f_equal2 cons); [apply vec_eq; unfold vx, vy, vz; cbn [fst snd]; lra|]. apply (f_equal2 cons); [apply vec_eq; unfold vx, vy, vz; cbn [fst snd]; lra|reflexivity].
Qed.
(** A skewed lattice and its transpose. *)
Definition skewed : cell := {| bA := (1, 0, 0)%R; bB := (1 / 2, 2, 0)%R; bC := (0, 0, 3)%R; numbers := [1]; coords := [(0, 0, 0)%R]; origin := (0, 0, 0)%R |}.
Definition transposed : cell := {| bA := (1, 1 / 2, 0)%R; bB := (0, 2, 0)%R; bC := (0, 0, 3)%R; numbers := [1]; coords := [(0, 0, 0)%R]; origin := (0, 0, 0)%R |}.
Lemma transposed_differs : is_neighbour (11 / 10) (true, true, true) skewed 0 0 (1, 0, 0) /\ ~ is_neighbour (11 / 10) (true, true, true) transposed 0 0 (1, 0, 0).
Proof.
  split.
  - exists (0, 0, 0)%R, (0, 0, 0)%R. split; [reflexivity|]. split; [reflexivity|]. split; [cbn; repeat split; discriminate|]. unfold lattice_vec, skewed. cbn [bA bB bC]. vec_unfold. lra.
  - intros (xi & xj & E1 & E2 & _ & H). cbn in E1, E2. injection E1 as <-. injection E2 as <-. revert H. unfold lattice_vec, transposed. cbn [bA bB bC]. vec_unfold. lra.
Qed.
Lemma fortran std_sort : sort_contract std_sort -> forall A B C zs xs is_cart c,
  meant (vx A, vx B, vx C) (vy A, vy B, vy C) (vz A, vz B, vz C) zs xs is_cart c -> zs <> [] -> proper c -> wrapped c -> faces_positive c ->
  forall rcut p0 p1 p2 rest sort umax, (0 < rcut)%R ->
  exists nbrs, neighbour_table rcut (p0, p1, p2) c sort nbrs /\
  (Forall (fun l => (length l <= umax)%nat) nbrs ->
   exists r, find_info4mlff_py std_sort (column_major [A; B; C]) (length zs) zs (row_major xs) rcut (p0 :: p1 :: p2 :: rest) umax sort is_cart = Ok r /\ holds c umax nbrs r).
Proof. intros Hs A B C zs xs is_cart c. rewrite fortran_lattice. apply result_ok. exact Hs. Qed.
