(** Proofs about collections made from trajectory files. *)
From Coq Require Import ZifyBool ZifyNat.
From Verif Require Import Base Text MovementModel MovementSpec MovementProofs DataModel DataSpec DataProofs ExtractorSpec ExtractorLabels CollTrajModel CollTrajSpec.

Section Traj.
Context {F : Type}.
Variable pfloat : string -> result F.
Variable fs : string -> result (@struct F).
Variable chk : string -> result unit.

Lemma texts_of file m : mv_open file = Ok m -> frame_texts m (read_sequential m).
Proof.
  intros H. destruct (random_access file m 0 H) as [_ N]. split; [symmetry; exact N|]. intros k t. destruct (random_access file m k H) as [-> _]. rewrite N. split.
  - intros E. rewrite E. split; [apply nth_error_Some; congruence|reflexivity].
  - intros [_ E]. destruct (nth_error (read_sequential m) k); congruence.
Qed.

Lemma locate_split c ls : forall i j r, locate_list_from i c ls = j :: r ->
  exists pre h post, ls = pre ++ h :: post /\ j = i + List.length pre /\ heads c h /\ Forall (fun w => ~ heads c w) pre /\ r = locate_list_from (S j) c post.
Proof.
  induction ls as [|l ls IH]; intros i j r H; [discriminate|]. cbn [locate_list_from] in H. destruct (contains c (upper l)) eqn:E.
  - injection H as <- <-. exists [], l, ls. cbn. split; [reflexivity|]. split; [lia|]. split; [exact E|]. split; [constructor|reflexivity].
  - apply IH in H as (pre & h & post & -> & -> & A & B & C). exists (l :: pre), h, post. cbn. split; [reflexivity|]. split; [lia|]. split; [exact A|].
    split; [constructor; [unfold heads; congruence|exact B]|exact C].
Qed.

Lemma nth_after {A} (pre : list A) x post k : nth_error (pre ++ x :: post) (List.length pre + S k) = nth_error post k.
Proof. rewrite nth_error_app2 by lia. now replace (List.length pre + S k - List.length pre) with (S k) by lia. Qed.

Lemma last_comma c x : last_char c = Some x -> c = drop_last c +++ String x "".
Proof.
  induction c as [|a c IH]; [discriminate|]. destruct c as [|a' c]; [cbn; intros [= ->]; reflexivity|].
  intros H. change (last_char (String a (String a' c))) with (last_char (String a' c)) in H. apply IH in H.
  change (drop_last (String a (String a' c))) with (String a (drop_last (String a' c))). cbn [append]. congruence.
Qed.
Lemma last_snoc d x : last_char (d +++ String x "") = Some x.
Proof. induction d as [|a d IH]; [reflexivity|]. destruct d as [|b d]; [reflexivity|]. exact IH. Qed.

Lemma bulk_energies t e : bulk_energy_of_text F pfloat t = Ok e -> energies_of pfloat t e.
Proof.
  unfold bulk_energy_of_text, first_row_tokens. intros H. destruct (split_on nl t) as [|line rest] eqn:L; [discriminate|]. cbn [get nth_error bind] in H.
  unfold locate_list in H. destruct (locate_list_from 0 "=" (split_ws line)) as [|j1 r1] eqn:E1; [discriminate|].
  apply locate_split in E1 as (front & x & post & W & -> & Hx & Nf & R). destruct r1 as [|j2 r2]; [discriminate|]. symmetry in R.
  apply locate_split in R as (between & y & post2 & -> & -> & Hy & Nb & _). cbn [get nth_error bind] in H. rewrite W in H.
  assert (G : forall k, get (front ++ x :: between ++ y :: post2) (S (0 + List.length front) + List.length between + S k) = get post2 k).
  { intros k. unfold get. replace (S (0 + List.length front) + List.length between + S k) with (List.length front + S (List.length between + S k)) by lia.
    now rewrite nth_after, nth_after. }
  rewrite !G in H. destruct post2 as [|a post2]; [discriminate|]. cbn [get nth_error bind] in H. destruct (pfloat a) as [ea|] eqn:Pa; [|discriminate]. cbn [bind] in H.
  destruct post2 as [|b post2]; [discriminate|]. cbn [get nth_error bind] in H. destruct (pfloat b) as [eb|] eqn:Pb; [|discriminate]. cbn [bind] in H.
  destruct post2 as [|c post2]; [discriminate|]. cbn [get nth_error bind] in H.
  assert (Q : exists c' ec, (c = c' +++ "," \/ c = c' /\ ~ exists d, c = d +++ ",") /\ pfloat c' = Ok ec /\ e = (ea, eb, ec)).
  { rewrite without_comma_match in H. unfold without_comma in H. destruct (last_char c) as [z|] eqn:Lc.
    - destruct (Ascii.eqb_spec z ","%char) as [->|N].
      + destruct (pfloat (drop_last c)) as [ec|] eqn:P; [|discriminate]. injection H as <-. exists (drop_last c), ec. split; [left; now apply last_comma|]. auto.
      + destruct (pfloat c) as [ec|] eqn:P; [|discriminate]. injection H as <-. exists c, ec. split; [right; split; [reflexivity|]|auto].
        intros [d ->]. rewrite last_snoc in Lc. congruence.
    - destruct (pfloat c) as [ec|] eqn:P; [|discriminate]. injection H as <-. exists c, ec. split; [right; split; [reflexivity|]|auto].
      intros [d ->]. rewrite last_snoc in Lc. congruence. }
  destruct Q as (c' & ec & Q1 & Q2 & ->). exists line, rest, front, x, between, y, a, b, c, c', post2.
  split; [exact L|]. split; [exact W|]. repeat (split; [assumption|]). assumption.
Qed.

Lemma somes_stressed (vs : list (option (list (list F)))) : somes vs = stressed vs.
Proof. unfold stressed. induction vs as [|[v|] vs IH]; cbn; [reflexivity|now rewrite IH|exact IH]. Qed.

Lemma frames_zip ts : forall ss es vs, Forall2 (fun c st => fs c = Ok st) ts ss -> Forall2 (fun c en => bulk_energy_of_text F pfloat c = Ok en) ts es ->
  Forall2 (fun c v => bulk_virial_of_text F pfloat c = Ok v) ts vs -> frames_are pfloat fs ts ss es vs.
Proof.
  induction ts as [|t ts IH]; intros ss es vs A B C; inversion A; inversion B; inversion C; subst; constructor; [|apply IH; assumption].
  split; [assumption|]. split; [apply bulk_energies; assumption|]. apply (proj1 (bulk_virial_iff F pfloat t _)). assumption.
Qed.

Lemma frames_lengths ts ss es vs : frames_are pfloat fs ts ss es vs -> List.length ss = List.length ts /\ List.length es = List.length ts /\ List.length vs = List.length ts.
Proof. induction 1 as [|t s e v ts ss es vs _ _ IH]; cbn; [auto|]. destruct IH as (A & B & C). auto. Qed.

(** ** The collection *)
Lemma trajectory_collection file m c : mv_open file = Ok m -> from_trajectory F pfloat fs chk m = Ok c ->
  exists texts es vs, frame_texts m texts /\ frames_are pfloat fs texts (co_structs c) es vs /\
  co_total c = map (fun e => fst (fst e)) es /\ co_potential c = map (fun e => snd (fst e)) es /\ co_kinetic c = map snd es /\
  co_virial c = map (@concat F) (stressed vs) /\ equal_lengths (co_virial c).
Proof.
  intros H R. unfold from_trajectory in R. destruct (get_all_frame_structures_info F pfloat struct fs chk m) as [b|] eqn:E; [|discriminate]. cbn [bind] in R.
  unfold get_all_frame_structures_info in E. apply bulk_loop_spec in E as (ss & es & vs & H1 & H2 & H3 & H4 & H5 & H6). cbn in H4, H5, H6.
  destruct (np_stack (map (@concat F) (b_virials F struct b))) as [vir|] eqn:N; [|discriminate]. cbn [bind] in R.
  destruct (make_some _ _ _ _ _ _ R) as (M1 & M2 & M3 & M4 & M5 & _).
  exists (read_sequential m), es, vs. split; [exact (texts_of file m H)|]. rewrite M1, M2, M3, M4, M5, H4, H5.
  split; [now apply frames_zip|]. split; [reflexivity|]. split; [reflexivity|]. split; [reflexivity|].
  rewrite H6 in N. unfold np_stack in N. rewrite somes_stressed in N. destruct (map (@concat F) (stressed vs)) as [|r rest] eqn:L.
  - injection N as <-. split; [reflexivity|intros x y []].
  - destruct (forallb _ rest) eqn:A; [|discriminate]. injection N as <-. split; [reflexivity|]. rewrite forallb_forall in A.
    assert (B : forall x, In x (r :: rest) -> List.length x = List.length r). { intros x [<-|Hx]; [reflexivity|]. apply Nat.eqb_eq. apply A. exact Hx. }
    intros x y Hx Hy. rewrite (B x Hx), (B y Hy). reflexivity.
Qed.

(** ** Saving *)
Variable nonzero : F -> bool.
Definition with_virial (c : @coll F) (v : list (list F)) : coll :=
  mkColl (co_structs c) (co_total c) (co_potential c) (co_kinetic c) v (co_numbers c) (co_counts c) (co_atoms c).

Lemma to_concat old (c : @coll F) v s : concat v = concat (co_virial c) -> to nonzero old (with_virial c v) s = to nonzero old c s.
Proof.
  intros E. unfold to. change (type_index (with_virial c v)) with (type_index c). cbn [with_virial co_structs co_atoms].
  assert (B : build_arrays (with_virial c v) = build_arrays c) by (unfold build_arrays; cbn [with_virial co_structs co_total co_virial]; now rewrite E).
  rewrite B. destruct (bind _ _) as [ty|]; [|reflexivity]. destruct (build_arrays c) as [a|]; [|reflexivity].
  destruct (s =? 0)%Z; [reflexivity|]. cbv zeta. generalize (seq 0 (Z.to_nat (if (s * (Z.of_nat (List.length (co_structs c)) / s) <? Z.of_nat (List.length (co_structs c)))%Z then (Z.of_nat (List.length (co_structs c)) / s + 1)%Z else (Z.of_nat (List.length (co_structs c)) / s)%Z))).
  intros is. match goal with |- write_sets _ _ _ _ _ ?d = _ => generalize d end. induction is as [|i is IH]; intros d; [reflexivity|]. cbn [write_sets].
  replace (set_files nonzero (with_virial c v) a (Z.of_nat i) s) with (set_files nonzero c a (Z.of_nat i) s) by (unfold set_files; cbn [with_virial co_virial]; now rewrite E).
  destruct (existsb _ d); [reflexivity|apply IH].
Qed.

Lemma stressed_all (vs : list (option (list (list F)))) : Forall (fun v => v <> None) vs -> List.length (stressed vs) = List.length vs.
Proof. unfold stressed. induction 1 as [|[v|] vs N _ IH]; cbn; [reflexivity|now rewrite IH|congruence]. Qed.
Lemma stressed_none (vs : list (option (list (list F)))) : Forall (fun v => v = None) vs -> stressed vs = [].
Proof. unfold stressed. induction 1 as [|v vs -> _ IH]; cbn; auto. Qed.

Lemma make_again (c : @coll F) structs tot pot kin vir v : make structs tot pot kin vir = Ok c -> make structs tot pot kin v = Ok (with_virial c v).
Proof. unfold make. destruct (get structs 0) as [s0|]; [|discriminate]. cbn [bind]. intros E. injection E as <-. reflexivity. Qed.

Lemma trajectory_saved file m c old (s : nat) : mv_open file = Ok m -> from_trajectory F pfloat fs chk m = Ok c -> alike (co_structs c) -> 0 < s ->
  exists texts es vs, frame_texts m texts /\ frames_are pfloat fs texts (co_structs c) es vs /\
  (Forall (fun v => v <> None) vs \/ Forall (fun v => v = None) vs ->
   exists dir k, to nonzero old c (Z.of_nat s) = (dir, Ok tt) /\ num_frames m <= s * k < num_frames m + s /\
   map fst (set_dirs dir) = map (fun i => ("set." +++ pad3 i)) (seq 0 k) /\
   holds (set_dirs dir) "cell.npy" (map st_box (co_structs c)) s /\
   holds (set_dirs dir) "atom_coord.npy" (map (fun x => concat (st_coords x)) (co_structs c)) s /\
   holds (set_dirs dir) "atom_force.npy" (map (fun x => concat (st_forces x)) (co_structs c)) s /\
   holds (set_dirs dir) "tot_energy.npy" (map (fun e => [fst (fst e)]) es) s /\
   (if existsb nonzero (concat (map (@concat F) (stressed vs))) then holds (set_dirs dir) "virial.npy" (map (@concat F) (stressed vs)) s
    else lacks (set_dirs dir) "virial.npy") /\
   (if existsb (existsb nonzero) (map st_energies (co_structs c)) then holds (set_dirs dir) "atom_energy.npy" (map st_energies (co_structs c)) s
    else lacks (set_dirs dir) "atom_energy.npy")).
Proof.
  intros H R A P. destruct (trajectory_collection file m c H R) as (texts & es & vs & T & Z & C1 & _ & _ & C4 & C5).
  exists texts, es, vs. split; [exact T|]. split; [exact Z|]. intros D. destruct (frames_lengths _ _ _ _ Z) as (L1 & L2 & L3). destruct T as [N _].
  assert (M : exists pot kin vir, make (co_structs c) (co_total c) pot kin vir = Ok c).
  { unfold from_trajectory in R. destruct (get_all_frame_structures_info F pfloat struct fs chk m) as [b|]; [|discriminate]. cbn [bind] in R.
    destruct (np_stack _) as [vir|]; [|discriminate]. cbn [bind] in R. pose proof R as R'. apply make_some in R'. destruct R' as (-> & -> & _). eexists _, _, _. exact R. }
  destruct M as (pot & kin & vir & M).
  assert (V : exists v, concat v = concat (co_virial c) /\ List.length v = List.length (co_structs c) /\ equal_lengths v /\
              (forall d, (if existsb (existsb nonzero) v then holds d "virial.npy" v s else lacks d "virial.npy") ->
               if existsb nonzero (concat (map (@concat F) (stressed vs))) then holds d "virial.npy" (map (@concat F) (stressed vs)) s else lacks d "virial.npy")).
  { assert (X : forall l : list (list F), existsb nonzero (concat l) = existsb (existsb nonzero) l).
    { induction l as [|x l IH]; [reflexivity|]. cbn. rewrite existsb_app. now rewrite IH. }
    destruct D as [D|D].
    - exists (co_virial c). split; [reflexivity|]. split; [rewrite C4, map_length, stressed_all by exact D; congruence|]. split; [exact C5|].
      intros d Q. rewrite X, <- C4. exact Q.
    - rewrite C4, (stressed_none vs D). exists (repeat [] (List.length (co_structs c))). cbn [map concat existsb]. split; [|split; [apply repeat_length|split]].
      + generalize (List.length (co_structs c)). intros n. induction n as [|n IH]; [reflexivity|exact IH].
      + intros x y Hx Hy. apply repeat_spec in Hx, Hy. now subst.
      + intros d. replace (existsb (existsb nonzero) (repeat [] (List.length (co_structs c)))) with false; [auto|].
        generalize (List.length (co_structs c)). intros n. induction n as [|n IH]; [reflexivity|exact IH]. }
  destruct V as (v & V1 & V2 & V3 & V4). rewrite <- (to_concat old c v (Z.of_nat s) V1).
  destruct A as (A1 & A2 & A3 & A4).
  destruct (saved nonzero (co_structs c) (co_total c) pot kin v (with_virial c v) old s (make_again _ _ _ _ _ _ v M)) as (dir & k & S1 & S2 & S3 & _ & S4 & S5 & S6 & S7 & S8 & S9); [|exact P|].
  { split; [rewrite C1, map_length; congruence|]. split; [exact V2|]. split; [exact V3|]. split; [exact A1|]. split; [exact A2|]. split; [exact A3|exact A4]. }
  exists dir, k. split; [exact S1|]. split; [rewrite <- N, <- L1; exact S2|]. split; [exact S3|]. split; [exact S4|]. split; [exact S5|]. split; [exact S6|].
  split; [rewrite C1, map_map in S7; exact S7|]. split; [exact (V4 _ S8)|exact S9].
Qed.

(** Some frames with and some without stress. *)
Lemma trajectory_uneven file m c old s : mv_open file = Ok m -> from_trajectory F pfloat fs chk m = Ok c -> alike (co_structs c) ->
  exists texts es vs, frame_texts m texts /\ frames_are pfloat fs texts (co_structs c) es vs /\
  (List.length (concat (concat (stressed vs))) mod num_frames m <> 0 -> snd (to nonzero old c s) = Err ValueError /\ set_dirs (fst (to nonzero old c s)) = []).
Proof.
  intros H R A. destruct (trajectory_collection file m c H R) as (texts & es & vs & T & Z & C1 & _ & _ & C4 & C5).
  exists texts, es, vs. split; [exact T|]. split; [exact Z|]. intros D. destruct (frames_lengths _ _ _ _ Z) as (L1 & L2 & L3). destruct T as [N _].
  assert (M : exists pot kin, make (co_structs c) (co_total c) pot kin (co_virial c) = Ok c).
  { unfold from_trajectory in R. destruct (get_all_frame_structures_info F pfloat struct fs chk m) as [b|]; [|discriminate]. cbn [bind] in R.
    destruct (np_stack _) as [vir|]; [|discriminate]. cbn [bind] in R. pose proof R as R'. apply make_some in R'. destruct R' as (-> & -> & _ & _ & -> & _). eexists _, _. exact R. }
  destruct M as (pot & kin & M). destruct A as (A1 & A2 & A3 & _).
  apply (bad_virial nonzero (co_structs c) (co_total c) pot kin (co_virial c) c old s M); try assumption.
  - rewrite C1, map_length. congruence.
  - rewrite C4, L1, N. intros Q. apply D. rewrite <- Q. f_equal. f_equal. generalize (stressed vs). intros l. induction l as [|x l IH]; [reflexivity|]. cbn. now rewrite concat_app, IH.
Qed.

End Traj.

(** With the builder of the repository. *)
Lemma trajectory_unavailable (F : Type) (pfloat : string -> result F) mk chk file m : mv_open file = Ok m ->
  from_trajectory F pfloat (from_str mk "pwmat") chk m = Err AttributeError.
Proof.
  intros H. unfold from_trajectory, get_all_frame_structures_info. destruct (random_access file m 0 H) as [_ N].
  rewrite mv_open_spec in H. destruct (read_sequential m) as [|t r] eqn:E.
  - exfalso. rewrite read_sequential_spec with (file := file) in E by (rewrite mv_open_spec; exact H). apply map_eq_nil in E. rewrite E in H. discriminate.
  - cbn [bulk_loop]. rewrite (proj1 (@from_str_exact _ mk "pwmat" t) eq_refl). reflexivity.
Qed.
