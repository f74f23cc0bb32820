From Verif Require Import Text TextProofs MovementModel MovementSpec MovementProofs ExtractorModel.

Section P.
Variable F : Type.
Variable pfloat pint : string -> result F.
Variable fzero : F.
Notation mvo := (mve_open F pfloat).
Notation frame_info := (get_frame_info F pfloat pint fzero).
Notation frames_info := (get_frames_info F pfloat pint fzero).

Lemma magmoms_raise e : get_magmoms F pfloat e = Err AttributeError.
Proof. reflexivity. Qed.

Lemma bind_ok {A B} (r : result A) (f : A -> result B) b : bind r f = Ok b -> exists a, r = Ok a /\ f a = Ok b.
Proof. destruct r; cbn; [eauto|discriminate]. Qed.

Lemma mve_open_inv file x : mvo file = Ok x -> mv_open file = Ok (me_mv x) /\ magmoms_mark x = false.
Proof.
  unfold mve_open. intros H.
  apply bind_ok in H as [m [Hm H]]. apply bind_ok in H as [txt [_ H]]. apply bind_ok in H as [e [_ H]].
  apply bind_ok in H as [v [_ H]]. apply bind_ok in H as [ea [_ H]].
  rewrite magmoms_raise in H. cbn in H. injection H as <-. cbn. auto.
Qed.

Lemma labels_no_magmoms file x : mvo file = Ok x -> ~ In "magmoms" (get_info_labels x).
Proof.
  intros H. apply mve_open_inv in H as [_ H]. unfold get_info_labels. rewrite H.
  destruct (virial_mark x), (eatoms_mark x); cbn; intuition discriminate.
Qed.

(** One frame's fields. *)
Definition frame_row (v ea : bool) (txt : string) : result (list (list F)) :=
  bind (acstr_open txt) (fun e =>
  bind (get_basis_vectors F pfloat e) (fun box =>
  bind (get_types F pint e) (fun types =>
  bind (get_coords F pfloat e) (fun coords =>
  bind (get_etot F pfloat e) (fun etot =>
  bind (get_fatoms F pfloat fzero e) (fun fatoms =>
  bind (opt_field v (get_virial F pfloat e)) (fun vr =>
  bind (opt_field ea (get_eatoms F pfloat e)) (fun er =>
  Ok ([box; types; coords; etot; fatoms] ++ vr ++ er))))))))).

Definition opt_nth (b : bool) (l : list (list F)) (k : nat) : list (option (list F)) :=
  if b then [nth_error l k] else [].

Definition cols_at (x : mve) (c : columns F) (k : nat) : list (option (list F)) :=
  [nth_error (c_box F c) k; nth_error (c_types F c) k; nth_error (c_coord F c) k;
   nth_error (c_energy F c) k; nth_error (c_force F c) k]
  ++ opt_nth (virial_mark x) (c_virial F c) k ++ opt_nth (eatoms_mark x) (c_eatoms F c) k.

Definition lens (x : mve) (c : columns F) (n : nat) : Prop :=
  length (c_box F c) = n /\ length (c_types F c) = n /\ length (c_coord F c) = n /\
  length (c_energy F c) = n /\ length (c_force F c) = n /\
  (virial_mark x = true -> length (c_virial F c) = n) /\
  (eatoms_mark x = true -> length (c_eatoms F c) = n).

Lemma opt_field_ok {A} b (r : result A) l : opt_field b r = Ok l ->
  if b then exists a, r = Ok a /\ l = [a] else l = [].
Proof.
  unfold opt_field. destruct b; [|congruence]. destruct r; cbn; [|discriminate]. intros [= <-]. eauto.
Qed.

Lemma nth_app_exact {A} (l : list A) a n : length l = n -> nth_error (l ++ [a]) n = Some a.
Proof. intros <-. rewrite nth_error_app2, Nat.sub_diag by lia. reflexivity. Qed.

Ltac bok H := let a := fresh "v" in let E := fresh "E" in apply bind_ok in H as [a [E H]].

Lemma frames_loop_spec x : magmoms_mark x = false -> forall chunks c out n,
  lens x c n ->
  frames_loop F pfloat pint fzero x chunks c = Ok out ->
  lens x out (n + length chunks) /\
  (forall k, k < n -> cols_at x out k = cols_at x c k) /\
  (forall k txt, nth_error chunks k = Some txt ->
     exists row, frame_row (virial_mark x) (eatoms_mark x) txt = Ok row /\
                 cols_at x out (n + k) = map Some row).
Proof.
  intros Hmm. induction chunks as [|txt rest IH]; intros c out n Hl H; cbn [frames_loop] in H.
  - injection H as <-. rewrite Nat.add_0_r. split; [exact Hl|]. split; [reflexivity|].
    intros [|k] t Hk; discriminate.
  - bok H. bok H. bok H. bok H. bok H. bok H. bok H. bok H. bok H.
    rewrite Hmm in E7. cbn in E7. injection E7 as <-.
    destruct Hl as [L1 [L2 [L3 [L4 [L5 [L6 L7]]]]]].
    apply opt_field_ok in E5 as E5'. apply opt_field_ok in E6 as E6'.
    apply IH with (n := S n) in H; [|clear H].
    + destruct H as [Hlen [Hold Hnew]]. split; [|split].
      * replace (n + length (txt :: rest)) with (S n + length rest) by (cbn; lia). exact Hlen.
      * intros k Hk. rewrite Hold by lia. unfold cols_at, opt_nth; cbn [c_box c_types c_coord c_energy c_force c_virial c_eatoms].
        rewrite !nth_error_app1 by lia.
        destruct (virial_mark x) eqn:Ev; destruct (eatoms_mark x) eqn:Ee; rewrite ?nth_error_app1 by (rewrite ?L6, ?L7 by reflexivity; lia); reflexivity.
      * intros [|k] t Hk.
        -- cbn in Hk. injection Hk as <-. rewrite Nat.add_0_r.
           exists ([v0; v2; v1; v3; v4] ++ v5 ++ v6). split.
           ++ unfold frame_row. rewrite E; cbn [bind]. rewrite E0; cbn [bind]. rewrite E2; cbn [bind].
              rewrite E1; cbn [bind]. rewrite E3; cbn [bind]. rewrite E4; cbn [bind]. rewrite E5; cbn [bind]. rewrite E6. reflexivity.
           ++ rewrite Hold by lia. unfold cols_at, opt_nth; cbn [c_box c_types c_coord c_energy c_force c_virial c_eatoms].
              rewrite !nth_app_exact by assumption.
              destruct (virial_mark x); destruct (eatoms_mark x);
                repeat match goal with H : exists a, _ |- _ => destruct H as [? [_ ->]] | H : _ = [] |- _ => rewrite H end;
                rewrite ?nth_app_exact by auto; reflexivity.
        -- cbn in Hk. destruct (Hnew k t Hk) as [row [R1 R2]]. exists row. split; [exact R1|].
           rewrite <- R2. f_equal. lia.
    + unfold lens; cbn [c_box c_types c_coord c_energy c_force c_virial c_eatoms].
      rewrite !app_length. cbn [length]. repeat split; try lia.
      * intros Hv. rewrite Hv in E5'. destruct E5' as [? [_ ->]]. cbn. rewrite L6 by exact Hv. lia.
      * intros Hv. rewrite Hv in E6'. destruct E6' as [? [_ ->]]. cbn. rewrite L7 by exact Hv. lia.
Qed.

Lemma np_array_ok {A} (r s : list (list A)) : np_array r = Ok s -> s = r.
Proof. unfold np_array. destruct (same_lengths r); congruence. Qed.

Lemma mapM_np_array_ok {A} (l s : list (list (list A))) : mapM np_array l = Ok s -> s = l.
Proof.
  revert s; induction l as [|r l IH]; intros s H; cbn [mapM] in H; [congruence|].
  apply bind_ok in H as [a [E H]]. apply bind_ok in H as [b [E' H]]. injection H as <-.
  apply np_array_ok in E as ->. rewrite (IH b E'). reflexivity.
Qed.

Lemma frame_info_row x k : magmoms_mark x = false ->
  frame_info x k = bind (get_frame_str (me_mv x) k) (frame_row (virial_mark x) (eatoms_mark x)).
Proof.
  intros Hmm. unfold get_frame_info, frame_row. rewrite Hmm.
  destruct (get_frame_str (me_mv x) k) as [t|]; [|reflexivity]. cbn [bind].
  destruct (acstr_open t) as [e|]; [|reflexivity]. cbn [bind].
  destruct (get_basis_vectors F pfloat e) as [b|]; [|reflexivity]. cbn [bind].
  destruct (get_types F pint e) as [ty|]; [|reflexivity]. cbn [bind].
  destruct (get_coords F pfloat e) as [co|]; [|reflexivity]. cbn [bind].
  destruct (get_etot F pfloat e) as [et|]; [|reflexivity]. cbn [bind].
  destruct (get_fatoms F pfloat fzero e) as [fa|]; [|reflexivity]. cbn [bind].
  destruct (opt_field (virial_mark x) (get_virial F pfloat e)) as [v|]; [|reflexivity]. cbn [bind opt_field].
  reflexivity.
Qed.

Lemma single_vs_all file x cols : mvo file = Ok x -> frames_info x = Ok cols ->
  Forall (fun col => length col = num_frames (me_mv x)) cols /\
  forall k, k < num_frames (me_mv x) ->
    exists row, frame_info x k = Ok row /\ map (fun col => nth_error col k) cols = map Some row.
Proof.
  intros Hx Hf. apply mve_open_inv in Hx as [Hmv Hmm]. unfold get_frames_info in Hf.
  apply bind_ok in Hf as [c [E Hf]]. apply bind_ok in Hf as [base [E0 Hf]].
  apply bind_ok in Hf as [v0 [E1 Hf]]. apply bind_ok in Hf as [v1 [E2 Hf]].
  rewrite Hmm in Hf; cbn [opt_field bind] in Hf. injection Hf as <-.
  apply mapM_np_array_ok in E0 as ->. rewrite app_nil_r.
  apply opt_field_ok in E1. apply opt_field_ok in E2.
  assert (L0 : lens x {| c_box := []; c_coord := []; c_types := []; c_energy := []; c_force := [];
             c_virial := []; c_eatoms := []; c_magmoms := [] |} 0) by (repeat split).
  destruct (frames_loop_spec x Hmm _ _ _ 0 L0 E) as [Hlen [_ Hrows]].
  destruct (random_access file (me_mv x) 0 Hmv) as [_ Hn].
  rewrite <- Hn in Hlen. cbn [Nat.add] in Hlen. destruct Hlen as [L1 [L2 [L3 [L4 [L5 [L6 L7]]]]]].
  assert (Hcols : forall k, map (fun col => nth_error col k) 
     ([c_box F c; c_types F c; c_coord F c; c_energy F c; c_force F c] ++ v0 ++ v1) = cols_at x c k).
  { intros k. unfold cols_at, opt_nth. destruct (virial_mark x); destruct (eatoms_mark x);
      repeat match goal with H : exists a, _ |- _ => destruct H as [? [?H ->]] | H : _ = [] |- _ => rewrite H; clear H end;
      repeat match goal with H : np_array _ = Ok _ |- _ => apply np_array_ok in H as -> end; reflexivity. }
  cbn [app] in *. split.
  - repeat (constructor; [assumption|]).
    destruct (virial_mark x); destruct (eatoms_mark x);
      repeat match goal with H : exists a, _ |- _ => destruct H as [? [?H ->]] | H : _ = [] |- _ => rewrite H; clear H end;
      repeat match goal with H : np_array _ = Ok _ |- _ => apply np_array_ok in H as -> end;
      cbn; repeat constructor; auto.
  - intros k Hk. destruct (random_access file (me_mv x) k Hmv) as [Hr _].
    destruct (nth_error (read_sequential (me_mv x)) k) as [txt|] eqn:Et;
      [|apply nth_error_None in Et; lia].
    destruct (Hrows k txt Et) as [row [R1 R2]]. exists row. split.
    + rewrite frame_info_row by exact Hmm. rewrite Hr. exact R1.
    + rewrite Hcols. exact R2.
Qed.
End P.
