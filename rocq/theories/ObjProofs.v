(** Lemmas about the descriptor objects. *)
From Verif Require Import ObjModel ObjSpec SlotSpec SlotProofs TextProofs TildeProofs.
Open Scope nat_scope.

Section Views.
Variable o : nlobj.
Hypothesis H : nl_ok o.

Lemma views_ok : lists_ok (nl_inum o) (nl_ilist o) (nl_numneigh o) (no_lists o) (no_x o) (no_types o).
Proof using H.
  destruct H as (A & B & C & D & _). unfold lists_ok, nl_ilist, nl_numneigh, nl_inum.
  rewrite !map_length, seq_length. repeat split; try lia.
  - rewrite (nth_indep _ 0 (0 + no_cell o * no_prim o)) by (rewrite map_length, seq_length; lia).
    rewrite (map_nth (fun i => i + no_cell o * no_prim o)), seq_nth by assumption. lia.
  - rewrite (nth_indep _ 0 (0 + no_cell o * no_prim o)) by (rewrite map_length, seq_length; lia).
    rewrite (map_nth (fun i => i + no_cell o * no_prim o)), seq_nth by assumption. lia.
  - change 0 with (length (@nil nat)). rewrite map_nth. lia.
  - unfold neighbours in H1. change 0 with (length (@nil nat)) in H1. rewrite map_nth, firstn_all in H1.
    apply (D (nth i (no_lists o) [])); [apply nth_In; assumption|assumption].
  - unfold neighbours in H1. change 0 with (length (@nil nat)) in H1. rewrite map_nth, firstn_all in H1. rewrite C.
    apply (D (nth i (no_lists o) [])); [apply nth_In; assumption|assumption].
Qed.

Lemma view_ilist i : i < nl_inum o -> nth i (nl_ilist o) 0 = i + no_cell o * no_prim o.
Proof using.
  intros I. unfold nl_ilist. rewrite (nth_indep _ 0 (0 + no_cell o * no_prim o)) by (rewrite map_length, seq_length; lia).
  rewrite (map_nth (fun i => i + no_cell o * no_prim o)), seq_nth by assumption. lia.
Qed.

Lemma view_num i : nth i (nl_numneigh o) 0 = length (nth i (no_lists o) []).
Proof using. unfold nl_numneigh. change 0 with (length (@nil nat)). apply map_nth. Qed.

Lemma view_nbt i na : neighbours_of_type (nl_numneigh o) (no_lists o) (no_types o) i na = nl_neighbours o i na.
Proof using.
  unfold neighbours_of_type, nl_neighbours, neighbours. rewrite view_num, firstn_all. reflexivity.
Qed.

Lemma view_cen ca : centres_of_type (nl_inum o) (nl_ilist o) (no_types o) ca = nl_centres o ca.
Proof using H.
  unfold centres_of_type, nl_centres. destruct H as (A & _ & _ & _ & D). rewrite A. unfold nl_inum. apply filter_ext_in. intros i I. apply in_seq in I.
  rewrite view_ilist by (unfold nl_inum; lia). unfold type_of. rewrite D by lia. reflexivity.
Qed.

Lemma in_cen i ca : In i (nl_centres o ca) -> i < nl_inum o.
Proof using H. destruct H as (A & _). unfold nl_centres, nl_inum. intros I. apply filter_In in I. destruct I as [I _]. apply in_seq in I. lia. Qed.

Lemma view_pad {V} (row : vec -> V) zero i na nn : i < nl_inum o ->
  padded row zero (nl_ilist o) (nl_numneigh o) (no_lists o) (no_x o) (no_types o) i na nn = nl_row row zero o i na nn.
Proof using. intros I. unfold padded, nl_row. rewrite view_nbt, view_ilist by exact I. reflexivity. Qed.

Lemma view_whole {V} (row : vec -> V) zero centres neighs nnl :
  whole row zero (nl_inum o) (nl_ilist o) (nl_numneigh o) (no_lists o) (no_x o) (no_types o) centres neighs nnl = nl_table row zero o centres neighs nnl.
Proof using H.
  unfold whole, nl_table. rewrite !flat_map_concat_map. f_equal. apply map_ext. intros ca. rewrite view_cen. apply map_ext_in. intros i I.
  rewrite !flat_map_concat_map. f_equal. apply map_ext. intros nb. apply view_pad. apply in_cen with ca, I.
Qed.

(** Counting. *)
Lemma count_loop ca n : n <= length (no_types o) ->
  foldM (fun n ii => bind (get (no_types o) ii) (fun t => Ok (if t =? ca then n + 1 else n))) (seq 0 n) 0 =
  Ok (length (filter (fun i => nth i (no_types o) 0 =? ca) (seq 0 n))).
Proof using.
  intros L. assert (G : forall l k, Forall (fun i => i < length (no_types o)) l ->
    foldM (fun n ii => bind (get (no_types o) ii) (fun t => Ok (if t =? ca then n + 1 else n))) l k =
    Ok (k + length (filter (fun i => nth i (no_types o) 0 =? ca) l))).
  { induction l as [|i l IH]; intros k F; [cbn; f_equal; lia|]. inversion F; subst. cbn [foldM filter].
    rewrite (get_ok (no_types o) i 0) by assumption. cbn [bind]. rewrite IH by assumption. destruct (_ =? ca); cbn [length]; f_equal; lia. }
  rewrite G; [reflexivity|]. apply Forall_forall. intros i I. apply in_seq in I. lia.
Qed.
Lemma obj_centres_ok ca : obj_centres o ca = Ok (length (nl_centres o ca)).
Proof using H. destruct H as (A & B & _). unfold obj_centres, nl_centres. apply count_loop. lia. Qed.
Lemma objs_centres_ok ca : objs_centres o ca = Ok (length (nl_centres o ca)).
Proof using H. assert (E := obj_centres_ok ca). destruct H as (A & _). unfold objs_centres. rewrite <- A. exact E. Qed.

Lemma obj_typed_ok na i : i < nl_inum o -> obj_typed o na i = Ok (length (nl_neighbours o i na)).
Proof using H.
  intros I. assert (N := num_typed_ok _ _ _ _ _ _ views_ok na i I). rewrite view_nbt in N. rewrite <- N. unfold num_typed, obj_typed.
  rewrite (get_ok (nl_numneigh o) i 0) by (unfold nl_numneigh; rewrite map_length; exact I). cbn [bind].
  rewrite (get_ok (no_lists o) i []) by exact I. cbn [bind]. rewrite view_num. reflexivity.
Qed.

Lemma obj_max_ok ca na : obj_max o ca na = Ok (maxn (map (fun i => length (nl_neighbours o i na)) (nl_centres o ca))).
Proof using H.
  unfold obj_max, nl_centres, maxn. assert (H' := H). destruct H' as (A & B & _). assert (B' : nl_inum o <= length (no_types o)) by (unfold nl_inum; rewrite <- A; nia). rewrite A.
  assert (G : forall l m, Forall (fun i => i < nl_inum o) l ->
    foldM (fun m ii => bind (get (no_types o) ii) (fun t =>
      if t =? ca then bind (obj_typed o na ii) (fun k => Ok (if m <? k then k else m)) else Ok m)) l m =
    Ok (fold_left Nat.max (map (fun i => length (nl_neighbours o i na)) (filter (fun i => nth i (no_types o) 0 =? ca) l)) m)).
  { induction l as [|i l IH]; intros m F; [reflexivity|]. inversion F as [|? ? I F']; subst. cbn [foldM filter].
    rewrite (get_ok (no_types o) i 0) by lia. cbn [bind]. destruct (nth i (no_types o) 0 =? ca).
    - rewrite obj_typed_ok by exact I. cbn [bind map fold_left]. rewrite IH by exact F'. do 2 f_equal.
      destruct (Nat.ltb_spec m (length (nl_neighbours o i na))); lia.
    - cbn [bind]. apply IH, F'. }
  rewrite G; [reflexivity|]. apply Forall_forall. intros i I. apply in_seq in I. unfold nl_inum. lia.
Qed.

Lemma objs_max_calc na : objs_max o na = calc_num_neigh (nl_inum o) (nl_numneigh o) (no_lists o) (no_types o) na.
Proof using H.
  unfold objs_max, calc_num_neigh. apply foldM_ext. intros i I m. apply in_seq in I. fold (nl_inum o) in I. change (length (no_lists o)) with (nl_inum o) in I. rewrite obj_typed_ok by lia.
  rewrite (num_typed_ok _ _ _ _ _ _ views_ok na i) by lia. rewrite view_nbt. reflexivity.
Qed.

Lemma max_room ca na : room o ca na (maxn (map (fun i => length (nl_neighbours o i na)) (nl_centres o ca))).
Proof using. intros i I. apply fold_max_ge. apply in_map_iff. exists i. split; [reflexivity|exact I]. Qed.
End Views.

Section Obj.
Context {V : Type}.
Variables (row : vec -> V) (zero : V) (o : nlobj).
Hypothesis H : nl_ok o.

(** One centre of an object is one centre of the static function whose check is off. *)
Lemma obj_centre_static ca na nn st i : i < nl_inum o ->
  obj_centre row o ca na st i = pair_centre row (nl_ilist o) (nl_numneigh o) (no_lists o) (no_x o) (no_types o) ca na nn 0 st i.
Proof using.
  intros I. unfold obj_centre, pair_centre. destruct st as [a cidx].
  rewrite (get_ok (nl_ilist o) i 0) by (unfold nl_ilist; rewrite map_length, seq_length; exact I). cbn [bind]. rewrite view_ilist by exact I.
  destruct (get (no_x o) _); [|reflexivity]. cbn [bind]. destruct (get (no_types o) _); [|reflexivity]. cbn [bind].
  destruct (_ =? ca); [|reflexivity]. cbn [negb]. destruct (Nat.ltb_spec nn 0); [lia|].
  rewrite (get_ok (nl_numneigh o) i 0) by (unfold nl_numneigh; rewrite map_length; exact I).
  rewrite (get_ok (no_lists o) i []) by exact I. cbn [bind]. rewrite view_num. reflexivity.
Qed.

Lemma obj_fold_ok ca na nn extra : room o ca na nn ->
  foldM (obj_centre row o ca na) (seq 0 (length (no_lists o))) (repeat (repeat zero nn) (length (nl_centres o ca) + extra), 0) =
  Ok (map (fun i => nl_row row zero o i na nn) (nl_centres o ca) ++ repeat (repeat zero nn) extra, length (nl_centres o ca)).
Proof using H.
  intros R. assert (H' := H). destruct H' as (A & _).
  assert (G : forall l u v, Forall (fun i => i < nl_inum o /\ ((nth i (no_types o) 0 =? ca) = true -> length (nl_neighbours o i na) <= nn)) l ->
    foldM (obj_centre row o ca na) l (u ++ repeat (repeat zero nn) (length (filter (fun i => nth i (no_types o) 0 =? ca) l)) ++ v, length u) =
    Ok (u ++ map (fun i => nl_row row zero o i na nn) (filter (fun i => nth i (no_types o) 0 =? ca) l) ++ v, length u + length (filter (fun i => nth i (no_types o) 0 =? ca) l))).
  { induction l as [|i l IH]; intros u v F; [cbn; rewrite Nat.add_0_r; reflexivity|]. inversion F as [|? ? [I L] F']; subst. cbn [foldM filter].
    rewrite (obj_centre_static ca na nn) by exact I.
    assert (T : type_of (no_types o) (nth i (nl_ilist o) 0) = nth i (no_types o) 0).
    { rewrite view_ilist by exact I. unfold type_of. destruct H as (A' & _ & _ & _ & D). apply D. unfold nl_inum in I. lia. }
    destruct (nth i (no_types o) 0 =? ca) eqn:E.
    - cbn [length repeat map app].
      rewrite (pair_centre_fill row zero _ _ _ _ _ _ (views_ok o H) ca na nn 0 i u); [|exact I|rewrite T; exact E|lia|rewrite view_nbt; apply L; reflexivity].
      cbn [bind]. rewrite view_pad by exact I.
      specialize (IH (u ++ [nl_row row zero o i na nn]) v F'). rewrite app_length in IH. cbn [length] in IH. rewrite <- !app_assoc in IH. cbn [app] in IH.
      rewrite IH. do 2 f_equal. lia.
    - rewrite (pair_centre_skip row _ _ _ _ _ _ (views_ok o H)); [|exact I|rewrite T; exact E]. cbn [bind]. apply IH, F'. }
  specialize (G (seq 0 (length (no_lists o))) [] (repeat (repeat zero nn) extra)). cbn [app length] in G.
  unfold nl_centres. rewrite A. rewrite repeat_app. rewrite G; [reflexivity|].
  apply Forall_forall. intros i I. split; [apply in_seq in I; unfold nl_inum; lia|]. intros E. apply R. unfold nl_centres. rewrite A. apply filter_In. split; assumption.
Qed.

Lemma obj_pair_ok asserts ca na nn : room o ca na nn ->
  obj_pair row zero o asserts ca na (length (nl_centres o ca)) nn = Ok (map (fun i => nl_row row zero o i na nn) (nl_centres o ca)).
Proof using H.
  intros R. unfold obj_pair. assert (E := obj_fold_ok ca na nn 0 R). rewrite Nat.add_0_r in E. rewrite E. cbn [bind snd fst].
  rewrite Nat.eqb_refl. cbn [negb]. rewrite andb_false_r. cbn [repeat]. rewrite app_nil_r. reflexivity.
Qed.

Lemma room_static ca na nn : room o ca na nn ->
  pair_generate row zero (nl_inum o) (nl_ilist o) (nl_numneigh o) (no_lists o) (no_x o) (no_types o) ca na nn =
  Ok (map (fun i => nl_row row zero o i na nn) (nl_centres o ca)).
Proof using H.
  intros R. rewrite (pair_generate_ok row zero _ _ _ _ _ _ (views_ok o H)).
  - rewrite view_cen by exact H. f_equal. apply map_ext_in. intros i I. apply view_pad, (in_cen o H i ca), I.
  - rewrite view_cen by exact H. intros i I. rewrite view_nbt. apply R, I.
Qed.

Lemma pair_reserved_ok asserts ca na nn : room o ca na nn ->
  pair_reserved row zero o asserts ca na nn = Ok (map (fun i => nl_row row zero o i na nn) (nl_centres o ca)) /\
  pair_reserved row zero o asserts ca na nn =
  pair_generate row zero (nl_inum o) (nl_ilist o) (nl_numneigh o) (no_lists o) (no_x o) (no_types o) ca na nn.
Proof using H.
  intros R. unfold pair_reserved. rewrite obj_centres_ok by exact H. cbn [bind]. rewrite obj_pair_ok by exact R. rewrite room_static by exact R. split; reflexivity.
Qed.

Lemma pair_automatic_ok asserts ca na : exists nn,
  pair_automatic row zero o asserts ca na = Ok (map (fun i => nl_row row zero o i na nn) (nl_centres o ca)) /\
  room o ca na nn /\ (nn = 0 \/ exists i, In i (nl_centres o ca) /\ length (nl_neighbours o i na) = nn).
Proof using H.
  exists (maxn (map (fun i => length (nl_neighbours o i na)) (nl_centres o ca))). unfold pair_automatic. rewrite obj_centres_ok by exact H. cbn [bind].
  rewrite obj_max_ok by exact H. cbn [bind]. split; [apply obj_pair_ok, max_room|]. split; [apply max_room|].
  unfold maxn. destruct (fold_max_in (map (fun i => length (nl_neighbours o i na)) (nl_centres o ca)) 0) as [E|E]; [left; exact E|right].
  apply in_map_iff in E. destruct E as (i & E & I). exists i. split; [exact I|exact E].
Qed.

Lemma objs_counts centres : mapM (objs_centres o) centres = Ok (map (fun ca => length (nl_centres o ca)) centres).
Proof using H. induction centres as [|ca l IH]; [reflexivity|]. cbn [mapM map]. rewrite objs_centres_ok by exact H. cbn [bind]. rewrite IH. reflexivity. Qed.
Lemma static_counts centres : mapM (num_centres (nl_inum o) (nl_ilist o) (no_types o)) centres = Ok (map (fun ca => length (nl_centres o ca)) centres).
Proof using H.
  induction centres as [|ca l IH]; [reflexivity|]. cbn [mapM map]. rewrite (num_centres_ok _ _ _ _ _ _ (views_ok o H)). cbn [bind].
  rewrite view_cen by exact H. rewrite IH. reflexivity.
Qed.
Lemma nth_count centres i : i < length centres -> nth i (map (fun ca => length (nl_centres o ca)) centres) 0 = length (nl_centres o (nth i centres 0)).
Proof using.
  intros I. rewrite (nth_indep _ 0 (length (nl_centres o 0))) by (rewrite map_length; exact I).
  exact (map_nth (fun ca => length (nl_centres o ca)) centres 0 i).
Qed.

Lemma objs_static asserts centres neighs nnl : length neighs = length nnl ->
  (forall ca na nn, In ca centres -> In (na, nn) (combine neighs nnl) -> room o ca na nn) ->
  objs_reserved row zero o asserts centres neighs nnl =
  tilde_generate row zero (nl_inum o) (nl_ilist o) (nl_numneigh o) (no_lists o) (no_x o) (no_types o) centres neighs nnl.
Proof using H.
  intros L R. unfold objs_reserved, tilde_generate. rewrite objs_counts, static_counts. cbn [bind]. unfold objs_table.
  apply foldM_ext. intros i I a. apply in_seq in I. apply foldM_ext. intros j J a'. apply in_seq in J.
  rewrite (get_ok centres i 0) by lia. rewrite (get_ok neighs j 0) by lia. rewrite (get_ok nnl j 0) by lia. cbn [bind].
  rewrite (get_ok _ i 0) by (rewrite map_length; lia). cbn [bind]. rewrite nth_count by lia.
  assert (Q : room o (nth i centres 0) (nth j neighs 0) (nth j nnl 0)).
  { apply R; [apply nth_In; lia|]. rewrite <- (combine_nth neighs nnl j 0 0 L). apply nth_In. rewrite combine_length. lia. }
  rewrite obj_pair_ok by exact Q. rewrite room_static by exact Q. reflexivity.
Qed.

Lemma objs_reserved_ok asserts centres neighs nnl : length neighs = length nnl ->
  (forall ca na nn, In ca centres -> In (na, nn) (combine neighs nnl) -> room o ca na nn) ->
  objs_reserved row zero o asserts centres neighs nnl = Ok (map (map Some) (nl_table row zero o centres neighs nnl)) /\
  objs_reserved row zero o asserts centres neighs nnl =
  tilde_generate row zero (nl_inum o) (nl_ilist o) (nl_numneigh o) (no_lists o) (no_x o) (no_types o) centres neighs nnl.
Proof using H.
  intros L R. rewrite objs_static by assumption. split; [|reflexivity].
  rewrite (tilde_generate_ok row zero _ _ _ _ _ _ (views_ok o H)); [|exact L|].
  - rewrite view_whole by exact H. reflexivity.
  - intros ca na nn i A B I. rewrite view_nbt. rewrite view_cen in I by exact H. apply (R ca na nn A B i I).
Qed.

Lemma objs_max_ok na : exists m, objs_max o na = Ok m /\ (forall i, i < no_prim o -> length (nl_neighbours o i na) <= m) /\
  (m = 0 \/ exists i, i < no_prim o /\ length (nl_neighbours o i na) = m).
Proof using H.
  rewrite objs_max_calc by exact H. destruct (calc_num_neigh_ok _ _ _ _ _ _ (views_ok o H) na) as (m & E & B & D). exists m.
  destruct H as (A & _). rewrite A. split; [exact E|]. split.
  - intros i I. rewrite <- view_nbt. apply B, I.
  - destruct D as [D|(i & I & D)]; [left; exact D|right; exists i; split; [exact I|]]. rewrite <- view_nbt. exact D.
Qed.

Lemma objs_automatic_ok asserts centres neighs : exists nnl,
  objs_automatic row zero o asserts centres neighs = Ok (map (map Some) (nl_table row zero o centres neighs nnl)) /\
  length nnl = length neighs /\
  (forall na nn, In (na, nn) (combine neighs nnl) -> (forall i, i < no_prim o -> length (nl_neighbours o i na) <= nn) /\
     (nn = 0 \/ exists i, i < no_prim o /\ length (nl_neighbours o i na) = nn)).
Proof using H.
  assert (M : exists nnl, mapM (objs_max o) neighs = Ok nnl /\ length nnl = length neighs /\
    (forall na nn, In (na, nn) (combine neighs nnl) -> (forall i, i < no_prim o -> length (nl_neighbours o i na) <= nn) /\
     (nn = 0 \/ exists i, i < no_prim o /\ length (nl_neighbours o i na) = nn))).
  { induction neighs as [|na l IH]; [exists []; repeat split; inversion H0|]. destruct IH as (k & E & L & P).
    destruct (objs_max_ok na) as (m & Em & Pm). exists (m :: k). cbn [mapM]. rewrite Em. cbn [bind]. rewrite E. cbn [bind].
    split; [reflexivity|]. split; [cbn; lia|]. intros na' nn [[= <- <-]|I]; [exact Pm|apply P, I]. }
  destruct M as (nnl & E & L & P). exists nnl. split; [|split; assumption].
  destruct (objs_reserved_ok asserts centres neighs nnl) as [Q _]; [lia| |].
  - intros ca na nn _ I i Hi. apply (proj1 (P na nn I)). unfold nl_centres in Hi. apply filter_In in Hi. destruct Hi as [Hi _]. apply in_seq in Hi. lia.
  - unfold objs_automatic. unfold objs_reserved in Q. rewrite objs_counts in *. cbn [bind] in *. rewrite E. cbn [bind]. exact Q.
Qed.

(** *** Too little room *)
Definition index_only {A} (r : result A) : Prop := (exists v, r = Ok v) \/ r = Err IndexError.
Lemma io_ok {A} (v : A) : index_only (Ok v). Proof. left. exists v. reflexivity. Qed.
Lemma io_get {A} (l : list A) i : index_only (get l i).
Proof. unfold get. destruct (nth_error l i); [apply io_ok|right; reflexivity]. Qed.
Lemma io_set {A} (l : list A) i v : index_only (set l i v).
Proof. unfold set. destruct (_ <? _); [apply io_ok|right; reflexivity]. Qed.
Lemma io_bind {A B} (r : result A) (f : A -> result B) : index_only r -> (forall v, index_only (f v)) -> index_only (bind r f).
Proof. intros [[v ->]| ->] F; [apply F|right; reflexivity]. Qed.
Lemma io_fold {A T} (f : T -> A -> result T) l : (forall s i, index_only (f s i)) -> forall s, index_only (foldM f l s).
Proof. intros F. induction l as [|i l IH]; intros s; [apply io_ok|]. cbn [foldM]. apply io_bind; [apply F|exact IH]. Qed.

Lemma io_neigh na pc ii cidx st jj : index_only (obj_neigh row o na pc ii cidx st jj).
Proof.
  unfold obj_neigh. destruct st as [a n]. repeat (apply io_bind; [apply io_get|intros ?]). destruct (negb _); [apply io_ok|].
  do 2 (apply io_bind; [apply io_get|intros ?]). do 2 (apply io_bind; [apply io_set|intros ?]). apply io_ok.
Qed.
Lemma io_centre ca na st ii : index_only (obj_centre row o ca na st ii).
Proof.
  unfold obj_centre. destruct st as [a n]. do 2 (apply io_bind; [apply io_get|intros ?]). destruct (negb _); [apply io_ok|].
  apply io_bind; [apply io_get|intros ?]. apply io_bind; [apply io_fold; intros; apply io_neigh|intros ?; apply io_ok].
Qed.
Lemma io_block nc nn cs ns (p : list (list V)) a : index_only (copy_block nc nn cs ns p a).
Proof.
  unfold copy_block. apply io_fold. intros s k. apply io_fold. intros s' l. do 3 (apply io_bind; [apply io_get|intros ?]).
  apply io_bind; [apply io_set|intros ?; apply io_set].
Qed.

Lemma fold_each {A T} (f : T -> A -> result T) l i : In i l -> forall s t, foldM f l s = Ok t -> exists s1 s2, f s1 i = Ok s2.
Proof.
  induction l as [|j l IH]; intros I s t E; [inversion I|]. cbn [foldM] in E. destruct (f s j) as [s'|] eqn:F; [|discriminate].
  destruct I as [->|I]; [exists s, s'; exact F|exact (IH I s' t E)].
Qed.
Definition rows (nn : nat) (a : list (list V)) : Prop := forall r, In r a -> length r = nn.
Lemma set_length {A} (l l' : list A) i v : set l i v = Ok l' -> length l' = length l /\ i < length l.
Proof.
  unfold set. destruct (Nat.ltb_spec i (length l)); [|discriminate]. intros E. assert (E' : l' = firstn i l ++ v :: skipn (S i) l) by congruence. subst l'. split; [|assumption].
  rewrite app_length. cbn [length]. rewrite firstn_length, skipn_length. lia.
Qed.
Lemma set_in {A} (l l' : list A) i v r : set l i v = Ok l' -> In r l' -> r = v \/ In r l.
Proof.
  unfold set. destruct (_ <? _); [|discriminate]. intros E I. assert (E' : l' = firstn i l ++ v :: skipn (S i) l) by congruence. subst l'. apply in_app_or in I. destruct I as [I|[->|I]]; [right|left; reflexivity|right].
  - rewrite <- (firstn_skipn i l). apply in_or_app. left. exact I.
  - rewrite <- (firstn_skipn (S i) l). apply in_or_app. right. exact I.
Qed.

Lemma neigh_step nn na pc ii cidx a k jj a' k' : rows nn a -> obj_neigh row o na pc ii cidx (a, k) jj = Ok (a', k') ->
  rows nn a' /\ exists b, nth_error (nth ii (no_lists o) []) jj = Some b /\
    (k' = k + (if nth b (no_types o) 0 =? na then 1 else 0)) /\ ((nth b (no_types o) 0 =? na) = true -> k < nn).
Proof.
  intros R. unfold obj_neigh. unfold get at 1. destruct (nth_error (no_lists o) ii) as [r|] eqn:Er; [|discriminate]. cbn [bind].
  unfold get at 1. destruct (nth_error r jj) as [b|] eqn:Eb; [|discriminate]. cbn [bind].
  unfold get at 1. destruct (nth_error (no_types o) b) as [t|] eqn:Et; [|discriminate]. cbn [bind].
  assert (N : nth ii (no_lists o) [] = r) by (apply nth_error_nth; exact Er). assert (Nt : nth b (no_types o) 0 = t) by (apply nth_error_nth; exact Et).
  destruct (t =? na) eqn:E; cbn [negb].
  - destruct (get (no_x o) b) as [pn|]; [|discriminate]. cbn [bind]. unfold get. destruct (nth_error a cidx) as [ar|] eqn:Ea; [|discriminate]. cbn [bind].
    destruct (set ar k _) as [ar'|] eqn:S1; [|discriminate]. cbn [bind]. destruct (set a cidx ar') as [a2|] eqn:S2; [|discriminate]. cbn [bind].
    intros [= <- <-]. assert (La : length ar = nn) by (apply R; apply nth_error_In with cidx; exact Ea).
    destruct (set_length _ _ _ _ S1) as [L1 L2]. split.
    + intros r' I. destruct (set_in _ _ _ _ _ S2 I) as [->|I']; [lia|apply R, I'].
    + exists b. rewrite N, Nt, E. split; [exact Eb|]. split; [reflexivity|intros _; lia].
  - intros [= <- <-]. split; [exact R|]. exists b. rewrite N, Nt, E. split; [exact Eb|]. split; [lia|discriminate].
Qed.

Lemma neigh_run nn na pc ii cidx : forall n s a k a' k', rows nn a -> foldM (obj_neigh row o na pc ii cidx) (seq s n) (a, k) = Ok (a', k') ->
  rows nn a' /\ k' = k + length (filter (fun b => nth b (no_types o) 0 =? na) (firstn n (skipn s (nth ii (no_lists o) [])))) /\ (k' = k \/ k' <= nn).
Proof.
  induction n as [|n IH]; intros s a k a' k' R E; [injection E as <- <-; split; [exact R|]; cbn; split; [lia|left; reflexivity]|].
  cbn [seq foldM] in E. destruct (obj_neigh row o na pc ii cidx (a, k) s) as [[a1 k1]|] eqn:E1; [|discriminate]. cbn [bind] in E.
  destruct (neigh_step nn na pc ii cidx a k s a1 k1 R E1) as (R1 & b & Nb & Kb & Lt).
  destruct (IH _ _ _ _ _ R1 E) as (R2 & K2 & D2). split; [exact R2|].
  assert (Sk : skipn s (nth ii (no_lists o) []) = b :: skipn (S s) (nth ii (no_lists o) [])).
  { clear - Nb. revert s Nb. induction (nth ii (no_lists o) []) as [|c l IHl]; intros [|s] Nb; try discriminate; [injection Nb as ->; reflexivity|].
    cbn [skipn]. rewrite IHl by exact Nb. destruct l; reflexivity. }
  rewrite Sk. cbn [firstn filter]. destruct (nth b (no_types o) 0 =? na); cbn [length].
  - split; [lia|]. specialize (Lt eq_refl). right. destruct D2 as [D2|D2]; lia.
  - split; [lia|]. destruct D2 as [D2|D2]; [left; lia|right; exact D2].
Qed.

Lemma centre_step nn ca na a k i a' k' : i < nl_inum o -> rows nn a -> obj_centre row o ca na (a, k) i = Ok (a', k') ->
  rows nn a' /\ (nth (i + no_cell o * no_prim o) (no_types o) 0 = ca -> length (nl_neighbours o i na) <= nn /\ k' = k + 1) /\
  (nth (i + no_cell o * no_prim o) (no_types o) 0 <> ca -> k' = k).
Proof.
  intros I R. unfold obj_centre. destruct (get (no_x o) _) as [pc|]; [|discriminate]. cbn [bind]. unfold get at 1.
  destruct (nth_error (no_types o) _) as [t|] eqn:Et; [|discriminate]. cbn [bind]. rewrite (nth_error_nth _ _ 0 Et).
  destruct (Nat.eqb_spec t ca) as [E|E]; cbn [negb].
  - rewrite (get_ok (no_lists o) i []) by exact I. cbn [bind].
    destruct (foldM _ _ (a, 0)) as [[a1 k1]|] eqn:F; [|discriminate]. cbn [bind fst]. intros [= <- <-].
    destruct (neigh_run nn na pc i k _ _ _ _ _ _ R F) as (R1 & K1 & D1). split; [exact R1|]. split; [|congruence]. intros _.
    cbn [skipn] in K1. rewrite firstn_all in K1. cbn [Nat.add] in K1. unfold nl_neighbours. rewrite <- K1. split; [|reflexivity]. destruct D1; lia.
  - intros [= <- <-]. split; [exact R|]. split; [congruence|reflexivity].
Qed.

Lemma obj_run nn ca na l : Forall (fun i => i < nl_inum o) l -> forall a k a' k', rows nn a -> foldM (obj_centre row o ca na) l (a, k) = Ok (a', k') ->
  (forall i, In i l -> nth (i + no_cell o * no_prim o) (no_types o) 0 = ca -> length (nl_neighbours o i na) <= nn) /\
  k' = k + length (filter (fun i => nth (i + no_cell o * no_prim o) (no_types o) 0 =? ca) l).
Proof.
  induction 1 as [|i l I F IH]; intros a k a' k' R E; [injection E as <- <-; split; [intros ? []|cbn; lia]|].
  cbn [foldM] in E. destruct (obj_centre row o ca na (a, k) i) as [[a1 k1]|] eqn:E1; [|discriminate]. cbn [bind] in E.
  destruct (centre_step nn ca na a k i a1 k1 I R E1) as (R1 & Y & N). destruct (IH _ _ _ _ R1 E) as (P & K). split.
  - intros j [->|J]; [intros T; apply Y, T|apply P, J].
  - cbn [filter]. destruct (Nat.eqb_spec (nth (i + no_cell o * no_prim o) (no_types o) 0) ca) as [T|T]; cbn [length].
    + destruct (Y T) as [_ ->]. lia.
    + rewrite (N T) in K. lia.
Qed.

Lemma shifted ca : filter (fun i => nth (i + no_cell o * no_prim o) (no_types o) 0 =? ca) (seq 0 (length (no_lists o))) = nl_centres o ca.
Proof using H.
  unfold nl_centres. destruct H as (A & _ & _ & _ & D). rewrite <- A at 1. apply filter_ext_in. intros i I. apply in_seq in I. rewrite D by lia. reflexivity.
Qed.

Lemma rows_repeat nn nc : rows nn (repeat (repeat zero nn) nc).
Proof. intros r I. apply repeat_spec in I. subst r. apply repeat_length. Qed.

(** Values or derivatives that are produced had room, and values had the right number of rows. *)
Lemma obj_pair_produced asserts ca na nc nn p : obj_pair row zero o asserts ca na nc nn = Ok p ->
  room o ca na nn /\ (asserts = true -> nc = length (nl_centres o ca)).
Proof using H.
  unfold obj_pair. destruct (foldM _ _ _) as [[a k]|] eqn:F; [|discriminate]. cbn [bind snd fst]. intros E.
  destruct (obj_run nn ca na (seq 0 (length (no_lists o)))) with (a := repeat (repeat zero nn) nc) (k := 0) (a' := a) (k' := k) as [P K].
  - apply Forall_forall. intros i I. apply in_seq in I. unfold nl_inum. lia.
  - apply rows_repeat.
  - exact F.
  - rewrite shifted in K. split.
    + intros i I. rewrite <- shifted in I. apply filter_In in I. destruct I as [I T]. apply Nat.eqb_eq in T. apply P; assumption.
    + intros ->. destruct (Nat.eqb_spec k nc) as [Q|Q]; [lia|]. cbn in E. discriminate.
Qed.

Lemma obj_pair_short asserts ca na nn : ~ room o ca na nn -> obj_pair row zero o asserts ca na (length (nl_centres o ca)) nn = Err IndexError.
Proof using H.
  intros R. destruct (obj_pair row zero o asserts ca na (length (nl_centres o ca)) nn) as [p|e] eqn:E.
  - destruct (obj_pair_produced _ _ _ _ _ _ E) as [Q _]. contradiction.
  - unfold obj_pair in E. destruct (foldM _ _ _) as [[a k]|e'] eqn:F.
    + exfalso. cbn [bind snd fst] in E.
      destruct (obj_run nn ca na (seq 0 (length (no_lists o)))) with (a := repeat (repeat zero nn) (length (nl_centres o ca))) (k := 0) (a' := a) (k' := k) as [P K].
      * apply Forall_forall. intros i I. apply in_seq in I. unfold nl_inum. lia.
      * apply rows_repeat.
      * exact F.
      * rewrite shifted in K. subst k. cbn [Nat.add] in E. rewrite Nat.eqb_refl in E. cbn [negb] in E. rewrite andb_false_r in E. discriminate.
    + cbn [bind] in E. destruct (io_fold (obj_centre row o ca na) (seq 0 (length (no_lists o))) (fun s i => io_centre ca na s i)
        (repeat (repeat zero nn) (length (nl_centres o ca)), 0)) as [[v G]|G]; rewrite G in F; congruence.
Qed.

Lemma pair_short asserts ca na nn i : In i (nl_centres o ca) -> nn < length (nl_neighbours o i na) ->
  pair_reserved row zero o asserts ca na nn = Err IndexError /\
  pair_generate row zero (nl_inum o) (nl_ilist o) (nl_numneigh o) (no_lists o) (no_x o) (no_types o) ca na nn = Err AssertionError.
Proof using H.
  intros I L. split.
  - unfold pair_reserved. rewrite obj_centres_ok by exact H. cbn [bind]. apply obj_pair_short. intros R. specialize (R i I). lia.
  - apply (pair_generate_bad row zero _ _ _ _ _ _ (views_ok o H) ca na nn i); [rewrite view_cen by exact H; exact I|rewrite view_nbt; exact L].
Qed.

Lemma io_pair asserts ca na nn : index_only (obj_pair row zero o asserts ca na (length (nl_centres o ca)) nn).
Proof using H.
  destruct (Forall_Exists_dec (fun i => length (nl_neighbours o i na) <= nn) (fun k => le_dec _ nn) (nl_centres o ca)) as [F|F].
  - rewrite Forall_forall in F. rewrite obj_pair_ok by exact F. apply io_ok.
  - right. apply obj_pair_short. intros R. apply Exists_exists in F. destruct F as (i & I & N). apply N, R, I.
Qed.

Lemma objs_short asserts centres neighs nnl ii jj i : length neighs = length nnl -> ii < length centres -> jj < length neighs ->
  In i (nl_centres o (nth ii centres 0)) -> nth jj nnl 0 < length (nl_neighbours o i (nth jj neighs 0)) ->
  objs_reserved row zero o asserts centres neighs nnl = Err IndexError /\
  tilde_generate row zero (nl_inum o) (nl_ilist o) (nl_numneigh o) (no_lists o) (no_x o) (no_types o) centres neighs nnl = Err AssertionError.
Proof using H.
  intros L I J C B. split.
  - unfold objs_reserved. rewrite objs_counts. cbn [bind]. unfold objs_table. set (ncl := map _ centres).
    match goal with |- foldM ?f ?l ?s = _ => assert (IO : index_only (foldM f l s)) end.
    { assert (G : forall l, Forall (fun i => i < length centres) l -> forall a, index_only (foldM (fun a ii => foldM (fun a jj =>
        bind (get centres ii) (fun ca => bind (get neighs jj) (fun na => bind (get nnl jj) (fun nn => bind (get ncl ii) (fun nc =>
        bind (get (starts ncl) ii) (fun cs => bind (get (starts nnl) jj) (fun ns =>
        bind (obj_pair row zero o asserts ca na nc nn) (fun p => copy_block nc nn cs ns p a)))))))) (seq 0 (length neighs)) a) l a)).
      { induction 1 as [|i1 l I1 F IH]; intros a; [apply io_ok|]. cbn [foldM]. apply io_bind; [|exact IH]. apply io_fold. intros s j1.
        rewrite (get_ok centres i1 0) by exact I1. cbn [bind]. do 2 (apply io_bind; [apply io_get|intros ?]).
        rewrite (get_ok ncl i1 0) by (unfold ncl; rewrite map_length; exact I1). cbn [bind]. do 2 (apply io_bind; [apply io_get|intros ?]).
        unfold ncl at 1. rewrite nth_count by exact I1. apply io_bind; [apply io_pair|intros ?; apply io_block]. }
      apply G. apply Forall_forall. intros k K. apply in_seq in K. lia. }
    destruct IO as [[t E]|E]; [exfalso|exact E].
    assert (Ii : In ii (seq 0 (length centres))) by (apply in_seq; lia). assert (Jj : In jj (seq 0 (length neighs))) by (apply in_seq; lia).
    destruct (fold_each _ _ ii Ii _ _ E) as (s1 & s2 & E1).
    destruct (fold_each _ _ jj Jj _ _ E1) as (s3 & s4 & E2).
    rewrite (get_ok centres ii 0) in E2 by exact I. cbn [bind] in E2. rewrite (get_ok neighs jj 0) in E2 by exact J. cbn [bind] in E2.
    rewrite (get_ok nnl jj 0) in E2 by lia. cbn [bind] in E2. rewrite (get_ok ncl ii 0) in E2 by (unfold ncl; rewrite map_length; exact I). cbn [bind] in E2.
    destruct (get (starts ncl) ii); [|discriminate]. cbn [bind] in E2. destruct (get (starts nnl) jj); [|discriminate]. cbn [bind] in E2.
    unfold ncl in E2. rewrite nth_count in E2 by exact I. rewrite obj_pair_short in E2; [discriminate|]. intros R. specialize (R i C). lia.
  - apply (tilde_generate_bad row zero _ _ _ _ _ _ (views_ok o H) centres neighs nnl ii jj i L I J); [rewrite view_cen by exact H; exact C|rewrite view_nbt; exact B].
Qed.

(** A wrong number of centres. *)
Lemma obj_pair_extra ca na nn extra : room o ca na nn ->
  obj_pair row zero o false ca na (length (nl_centres o ca) + extra) nn =
  Ok (map (fun i => nl_row row zero o i na nn) (nl_centres o ca) ++ repeat (repeat zero nn) extra) /\
  (0 < extra -> obj_pair row zero o true ca na (length (nl_centres o ca) + extra) nn = Err AssertionError).
Proof using H.
  intros R. unfold obj_pair. rewrite obj_fold_ok by exact R. cbn [bind snd fst andb]. split; [reflexivity|]. intros X.
  destruct (Nat.eqb_spec (length (nl_centres o ca)) (length (nl_centres o ca) + extra)); [lia|]. reflexivity.
Qed.
End Obj.
