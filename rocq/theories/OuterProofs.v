(** Lemmas about outer powers. *)
From Verif Require Import OuterModel OuterSpec TildeProofs.
Open Scope nat_scope.

Section Outer.
Context {T : Type}.
Variable mul : T -> T -> T.
Variables x y z : T.
Notation comp := (fun e => nth e [x; y; z] x).

Fixpoint entry (k r c : nat) : T :=
  match k with 0 => comp c | S k' => mul (entry k' (r / 3) (r mod 3)) (comp c) end.

Lemma fresh_right R C (F : nat -> nat -> T) : right_at R C F (fun _ _ => False) (repeat (repeat None C) R).
Proof.
  split; [|intros r c []]. split; [apply repeat_length|]. intros r l H. apply nth_error_In, repeat_spec in H. subst. apply repeat_length.
Qed.
Lemma vec_get vec e : (exists rest, vec = x :: y :: z :: rest) -> e < 3 -> get vec e = Ok (comp e).
Proof. intros [rest ->] H. destruct e as [|[|[|e]]]; try reflexivity. lia. Qed.

Lemma outer_ok k vec : (exists rest, vec = x :: y :: z :: rest) ->
  exists t, outer mul k vec = Ok t /\ right_at (3 ^ k) 3 (entry k) (fun _ _ => True) t.
Proof.
  intros V. induction k as [|k IH].
  - cbn [outer]. rewrite !(vec_get vec) by (assumption || lia). cbn [bind].
    destruct (put 1 3 (entry 0) _ _ 0 0 (comp 0) (fresh_right 1 3 (entry 0)) ltac:(lia) ltac:(lia) eq_refl) as (t1 & E1 & G1). unfold put_at. change (3 ^ 0) with 1. rewrite E1. cbn [bind].
    destruct (put 1 3 (entry 0) _ _ 0 1 (comp 1) G1 ltac:(lia) ltac:(lia) eq_refl) as (t2 & E2 & G2). rewrite E2. cbn [bind].
    destruct (put 1 3 (entry 0) _ _ 0 2 (comp 2) G2 ltac:(lia) ltac:(lia) eq_refl) as (t3 & E3 & G3). exists t3. split; [exact E3|].
    destruct G3 as [S3 G3]. split; [exact S3|]. intros r c _ Hr Hc. apply G3; [|exact Hr|exact Hc]. assert (C : c = 0 \/ c = 1 \/ c = 2) by lia. assert (r = 0) by lia. subst r. tauto.
  - destruct k as [|k].
    + cbn [outer]. clear IH. change (3 ^ 1) with 3.
      destruct (run 3 3 (entry 1) (fun t ii => foldM (fun t jj => bind (get vec ii) (fun u => bind (get vec jj) (fun v => put_at t ii jj (mul u v)))) (seq 0 3) t)
        (fun ii r c => r = ii) (seq 0 3)) with (a := repeat (repeat (@None T) 3) 3) (P := fun _ _ : nat => False) as (t & E & St & G).
      * intros ii a P I Ga. apply in_seq in I.
        destruct (run 3 3 (entry 1) (fun t jj => bind (get vec ii) (fun u => bind (get vec jj) (fun v => put_at t ii jj (mul u v)))) (fun jj r c => r = ii /\ c = jj) (seq 0 3)) with (a := a) (P := P) as (a2 & E2 & S2 & G2).
        -- intros jj a3 P3 J G3. apply in_seq in J. rewrite !(vec_get vec) by (assumption || lia). cbn [bind]. unfold put_at.
           apply (put 3 3 (entry 1) P3 a3 ii jj _ G3); [lia|lia|]. cbn [entry]. rewrite Nat.mod_small by lia. reflexivity.
        -- exact Ga.
        -- exists a2. split; [exact E2|]. split; [exact S2|]. intros r c X Hr Hc. apply G2; [|exact Hr|exact Hc]. destruct X as [X|X]; [left; exact X|right]. exists c. split; [apply in_seq; lia|split; [exact X|reflexivity]].
      * apply fresh_right.
      * exists t. split; [exact E|]. split; [exact St|]. intros r c _ Hr Hc. apply G; [|exact Hr|exact Hc]. right. exists r. split; [apply in_seq; lia|reflexivity].
    + destruct IH as (lower & El & Sl & Gl). change (outer mul (S (S k)) vec) with (bind (outer mul (S k) vec) (fun lower =>
        foldM (fun t ii => foldM (fun t jj => foldM (fun t kk =>
        bind (cell_at lower ii jj) (fun u => bind (get vec kk) (fun v => put_at t (ii * 3 + jj) kk (mul u v)))) (seq 0 3) t) (seq 0 3) t) (seq 0 (3 ^ S k)) (repeat (repeat None 3) (3 ^ S (S k))))).
      rewrite El. cbn [bind]. set (m := S k) in *. set (R := 3 ^ S m). assert (HR : R = 3 * 3 ^ m) by reflexivity.
      assert (Cell : forall ii jj, ii < 3 ^ m -> jj < 3 -> cell_at lower ii jj = Ok (entry m ii jj)).
      { intros ii jj A B. specialize (Gl ii jj I A B). unfold get2 in Gl. unfold cell_at. destruct (nth_error lower ii) as [row|] eqn:Er; [|discriminate]. rewrite (get_some _ _ _ Er). cbn [bind]. rewrite (get_some _ _ _ Gl). reflexivity. }
      destruct (run R 3 (entry (S m)) (fun t ii => foldM (fun t jj => foldM (fun t kk =>
        bind (cell_at lower ii jj) (fun u => bind (get vec kk) (fun v => put_at t (ii * 3 + jj) kk (mul u v)))) (seq 0 3) t) (seq 0 3) t)
        (fun ii r c => r / 3 = ii) (seq 0 (3 ^ m))) with (a := repeat (repeat (@None T) 3) R) (P := fun _ _ : nat => False) as (t & E & St & G).
      * intros ii a P Ii Ga. apply in_seq in Ii.
        destruct (run R 3 (entry (S m)) (fun t jj => foldM (fun t kk =>
          bind (cell_at lower ii jj) (fun u => bind (get vec kk) (fun v => put_at t (ii * 3 + jj) kk (mul u v)))) (seq 0 3) t)
          (fun jj r c => r = ii * 3 + jj) (seq 0 3)) with (a := a) (P := P) as (a2 & E2 & S2 & G2).
        -- intros jj a3 P3 J G3. apply in_seq in J.
           destruct (run R 3 (entry (S m)) (fun t kk =>
             bind (cell_at lower ii jj) (fun u => bind (get vec kk) (fun v => put_at t (ii * 3 + jj) kk (mul u v))))
             (fun kk r c => r = ii * 3 + jj /\ c = kk) (seq 0 3)) with (a := a3) (P := P3) as (a4 & E4 & S4 & G4).
           ++ intros kk a5 P5 K G5. apply in_seq in K. rewrite Cell by lia. cbn [bind]. rewrite (vec_get vec) by (assumption || lia). cbn [bind]. unfold put_at.
              apply (put R 3 (entry (S m)) P5 a5 (ii * 3 + jj) kk _ G5); [lia|lia|]. cbn [entry].
              replace ((ii * 3 + jj) / 3) with ii by (rewrite Nat.add_comm, Nat.div_add by lia; rewrite Nat.div_small by lia; reflexivity).
              replace ((ii * 3 + jj) mod 3) with jj by (rewrite Nat.add_comm, Nat.mod_add by lia; rewrite Nat.mod_small by lia; reflexivity). reflexivity.
           ++ exact G3.
           ++ exists a4. split; [exact E4|]. split; [exact S4|]. intros r c X Hr Hc. apply G4; [|exact Hr|exact Hc]. destruct X as [X|X]; [left; exact X|right]. exists c. split; [apply in_seq; lia|split; [exact X|reflexivity]].
        -- exact Ga.
        -- exists a2. split; [exact E2|]. split; [exact S2|]. intros r c X Hr Hc. apply G2; [|exact Hr|exact Hc]. destruct X as [X|X]; [left; exact X|right]. exists (r mod 3).
           split; [apply in_seq; assert (r mod 3 < 3) by (apply Nat.mod_upper_bound; lia); lia|]. assert (D := Nat.div_mod r 3 ltac:(lia)). lia.
      * apply fresh_right.
      * exists t. split; [exact E|]. split; [exact St|]. intros r c _ Hr Hc. apply G; [|exact Hr|exact Hc]. right. exists (r / 3). split; [|reflexivity].
        apply in_seq. split; [lia|]. apply Nat.div_lt_upper_bound; lia.
Qed.

(** The flat list of a completely written table. *)
Lemma flat_right R (F : nat -> nat -> T) t : right_at R 3 F (fun _ _ => True) t ->
  concat t = map Some (flat_map (fun r => map (F r) (seq 0 3)) (seq 0 R)).
Proof.
  intros [[L Sh] G]. assert (Et : t = map (fun r => map Some (map (F r) (seq 0 3))) (seq 0 R)).
  { apply nth_error_ext; [rewrite map_length, seq_length; exact L|]. intros r Hr. rewrite nth_error_map, (nth_error_nth' (seq 0 R) 0) by (rewrite seq_length; lia). rewrite seq_nth by lia. cbn [option_map Nat.add].
    destruct (nth_error t r) as [row|] eqn:Er; [|apply nth_error_None in Er; lia]. f_equal. apply nth_error_ext; [rewrite (Sh r row Er), !map_length, seq_length; reflexivity|].
    intros c Hc. rewrite (Sh r row Er) in Hc. specialize (G r c I ltac:(lia) Hc). unfold get2 in G. rewrite Er in G. rewrite G. destruct c as [|[|[|c]]]; try reflexivity. lia. }
  rewrite Et at 1. rewrite flat_map_concat_map, concat_map, map_map. reflexivity.
Qed.

Lemma flat_nth (F : nat -> nat -> T) R : forall a r c, r < R -> c < 3 -> nth_error (flat_map (fun r => map (F r) (seq 0 3)) (seq a R)) (3 * r + c) = Some (F (a + r) c).
Proof.
  induction R as [|R IH]; intros a r c Hr Hc; [lia|]. cbn [seq flat_map]. destruct r as [|r].
  - rewrite nth_error_app1 by (rewrite map_length; cbn; lia). rewrite nth_error_map. rewrite Nat.add_0_r. destruct c as [|[|[|c]]]; try reflexivity. lia.
  - rewrite nth_error_app2 by (rewrite map_length; cbn; lia). rewrite map_length. cbn [length]. replace (3 * S r + c - 3) with (3 * r + c) by lia.
    change (flat_map (fun r => map (F r) [0; 1; 2]) (seq (S a) R)) with (flat_map (fun r => map (F r) (seq 0 3)) (seq (S a) R)). rewrite IH by lia. f_equal. f_equal. lia.
Qed.

Lemma flat_len (F : nat -> nat -> T) R : forall a, length (flat_map (fun r => map (F r) (seq 0 3)) (seq a R)) = 3 * R.
Proof.
  induction R as [|R IH]; intros a; [reflexivity|]. change (length (map (F a) (seq 0 3) ++ flat_map (fun r => map (F r) (seq 0 3)) (seq (S a) R)) = 3 * S R).
  rewrite app_length, IH, map_length, seq_length. lia.
Qed.
Lemma base3_snoc ds d : base3 (ds ++ [d]) = 3 * base3 ds + d.
Proof. unfold base3. rewrite fold_left_app. reflexivity. Qed.
Lemma base3_bound ds : Forall (fun e => e < 3) ds -> base3 ds < 3 ^ length ds.
Proof.
  induction ds as [|d ds IH] using rev_ind; intros H; [cbn; lia|]. apply Forall_app in H. destruct H as [H1 H2]. inversion H2; subst. specialize (IH H1).
  rewrite base3_snoc, app_length. cbn [length]. rewrite Nat.add_1_r. change (3 ^ S (length ds)) with (3 * 3 ^ length ds). lia.
Qed.
Lemma entry_digits k : forall ds d, length ds = k -> Forall (fun e => e < 3) ds -> d < 3 ->
  entry k (base3 ds) d = match ds ++ [d] with e :: es => product mul (comp e) (map comp es) | [] => x end.
Proof.
  induction k as [|k IH]; intros ds d L H Hd.
  - destruct ds; [reflexivity|discriminate].
  - destruct ds as [|e ds] using rev_ind; [discriminate|]. clear IHds. rewrite app_length in L. cbn in L. apply Forall_app in H. destruct H as [H1 H2]. inversion H2; subst.
    cbn [entry]. rewrite base3_snoc. replace ((3 * base3 ds + e) / 3) with (base3 ds) by (rewrite Nat.mul_comm, Nat.add_comm, Nat.div_add by lia; rewrite Nat.div_small by lia; reflexivity).
    replace ((3 * base3 ds + e) mod 3) with e by (rewrite Nat.mul_comm, Nat.add_comm, Nat.mod_add by lia; rewrite Nat.mod_small by lia; reflexivity).
    rewrite IH by (assumption || lia). rewrite <- app_assoc. cbn [app]. destruct ds as [|f ds]; cbn [app]; [reflexivity|].
    unfold product. rewrite !map_app. cbn [map]. rewrite !fold_left_app. reflexivity.
Qed.

Lemma outer_correct k vec : (exists rest, vec = x :: y :: z :: rest) ->
  exists t flat, outer mul k vec = Ok t /\ length t = 3 ^ k /\ concat t = map Some flat /\ outer_power mul (S k) x y z flat.
Proof.
  intros V. destruct (outer_ok k vec V) as (t & E & G). exists t, (flat_map (fun r => map (entry k r) (seq 0 3)) (seq 0 (3 ^ k))). split; [exact E|].
  split; [apply (proj1 (proj1 G))|]. split; [apply (flat_right _ _ _ G)|]. split.
  - rewrite flat_len. reflexivity.
  - intros d ds L H. destruct (exists_last (l := d :: ds)) as (pre & e & Ep); [discriminate|]. rewrite Ep in *. rewrite app_length in L. cbn in L. apply Forall_app in H. destruct H as [H1 H2]. inversion H2; subst.
    rewrite base3_snoc. assert (B := base3_bound pre H1). replace (length pre) with k in B by lia. rewrite flat_nth by assumption. cbn [Nat.add]. rewrite entry_digits by (assumption || lia). rewrite <- Ep. reflexivity.
Qed.
End Outer.

Lemma ex_outer : exists t, outer Z.mul 2 [2; 3; 5]%Z = Ok t /\ concat t =
  map Some [8; 12; 20; 12; 18; 30; 20; 30; 50; 12; 18; 30; 18; 27; 45; 30; 45; 75; 20; 30; 50; 30; 45; 75; 50; 75; 125]%Z.
Proof. eexists. split; [vm_compute; reflexivity|]. reflexivity. Qed.
Lemma short_vector {T} (mul : T -> T -> T) k vec : length vec < 3 -> outer mul k vec = Err IndexError.
Proof.
  intros H. assert (Z0 : outer mul 0 vec = Err IndexError).
  { cbn [outer]. destruct vec as [|a [|b [|c r]]]; cbn in H; try lia; reflexivity. }
  destruct k as [|k]; [exact Z0|]. assert (Z1 : outer mul 1 vec = Err IndexError).
  { destruct vec as [|a [|b [|c r]]]; cbn in H; try lia; reflexivity. }
  induction k as [|k IH]; [exact Z1|]. change (outer mul (S (S k)) vec) with (bind (outer mul (S k) vec) (fun lower =>
        foldM (fun t ii => foldM (fun t jj => foldM (fun t kk =>
        bind (cell_at lower ii jj) (fun u => bind (get vec kk) (fun v => put_at t (ii * 3 + jj) kk (mul u v)))) (seq 0 3) t) (seq 0 3) t) (seq 0 (3 ^ S k)) (repeat (repeat None 3) (3 ^ S (S k))))).
  rewrite IH. reflexivity.
Qed.
