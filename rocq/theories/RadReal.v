(** The tables with real numbers are those of the model without memory. *)
From Verif Require Import ChebModel ChebSpec ChebProofs RadNum RadSpec RadObj RadQ.
Local Open Scope R_scope.
Local Open Scope list_scope.

Notation rvalue := (value R 0 1 r_vnext r_dnext).
Notation rderivu := (deriv R 0 1 r_vnext r_dnext).
Lemma value_T u n : rvalue u n = T n u /\ rderivu u n = D n u.
Proof.
  induction n as [| |n IH1 IH2] using two_step; [split; reflexivity..|].
  destruct (value_next 0 1 r_vnext r_dnext u n) as (-> & ->). destruct IH1 as (V0 & D0), IH2 as (V1 & D1). rewrite V0, D0, V1, D1, T_SS, D_SS. split; reflexivity.
Qed.
Lemma xi_unit hi lo r : xi hi lo r = to_unit hi lo r.
Proof. reflexivity. Qed.
Lemma cheb_loop_tables n hi lo r old : sized n old ->
  exists v d e, cheb_loop n (xi hi lo r) (xi_deriv2r hi lo) old = Ok (v, d, e) /\ [v; d; e] = polynomials R 0 1 r_vnext r_dnext Rmult xi xi_deriv2r n hi lo r.
Proof.
  intros Hs. rewrite cheb_loop_ok by auto. do 3 eexists. split; [reflexivity|]. unfold polynomials, rderiv. f_equal; [|f_equal; [|f_equal]]; apply map_ext; intros k; destruct (value_T (xi hi lo r) k) as (E1 & E2); rewrite ?E1, ?E2; reflexivity.
Qed.
Lemma poly_tables n hi lo r old : sized n old ->
  exists v d e, poly_build n hi lo r old = Ok (v, d, e) /\ [v; d; e] = cut_polynomials R 0 1 r_vnext r_dnext Rmult xi xi_deriv2r r_inside n hi lo r.
Proof.
  intros Hs. unfold poly_build, cut_polynomials, r_inside. destruct (Rle_dec lo r); [destruct (Rlt_dec r hi)|]; [now apply cheb_loop_tables|do 3 eexists; split; reflexivity..].
Qed.
Lemma rb_tables n hi lo r old : sized n old -> r_accepted hi lo r = true ->
  exists v d e, rb_build n hi lo r old = Ok (v, d, e) /\ [v; d; e] = polynomials R 0 1 r_vnext r_dnext Rmult xi xi_deriv2r n hi lo r.
Proof.
  intros Hs Ac. unfold rb_build, r_accepted in *. destruct (Rle_dec lo r); [|discriminate]. destruct (Rle_dec r hi); [|discriminate]. exact (cheb_loop_tables n hi lo r old Hs).
Qed.
Lemma q_tables_ok n hi lo r old : sized n old ->
  exists v d, mq_build n hi lo r old = Ok (v, d) /\ [v; d] = q_tables R 0 1 r_vnext r_dnext Rmult Rplus xi xi_deriv2r r_inside vv_result vv_deriv2r n hi lo r.
Proof.
  intros Hs. unfold mq_build. destruct (poly_tables n hi lo r old Hs) as (v & d & e & -> & E). cbn [bind]. rewrite cut_tables in E. injection E as -> _ ->. unfold q_tables.
  rewrite (mapM_ok_in _ (fun k => cut_value R 0 1 r_vnext r_dnext xi r_inside hi lo r k * vv_result hi lo r)).
  2:{ intros k Hk. apply in_seq in Hk. rewrite get_map_seq by lia. reflexivity. }
  cbn [bind]. rewrite (mapM_ok_in _ (fun k => cut_rderiv R 0 1 r_vnext r_dnext Rmult xi xi_deriv2r r_inside hi lo r k * vv_result hi lo r + cut_value R 0 1 r_vnext r_dnext xi r_inside hi lo r k * vv_deriv2r hi lo r)).
  2:{ intros k Hk. apply in_seq in Hk. rewrite !get_map_seq by lia. reflexivity. }
  cbn [bind]. do 2 eexists. split; reflexivity.
Qed.
Lemma rq_tables_ok n hi lo r old : sized n old -> r_accepted hi lo r = true ->
  exists v d, rq_build n hi lo r old = Ok (v, d) /\ [v; d] = rq_tables R 0 1 r_vnext r_dnext Rmult Rplus xi xi_deriv2r vv_result vv_deriv2r n hi lo r.
Proof.
  intros Hs Ac. unfold rq_build. destruct (rb_tables n hi lo r old Hs Ac) as (v & d & e & -> & E). cbn [bind]. unfold polynomials in E. injection E as -> _ ->.
  assert (basis_switch_val hi lo r = Ok (vv_result hi lo r) /\ basis_switch_der2r hi lo r = Ok (vv_deriv2r hi lo r)) as (-> & ->).
  { unfold r_accepted, basis_switch_val, basis_switch_der2r, vv_result, vv_deriv2r in *. destruct (Rle_dec lo r); [|discriminate]. destruct (Rle_dec r hi); [|discriminate]. split; reflexivity. }
  cbn [bind]. rewrite (mapM_ok_in _ (fun k => vv_result hi lo r * rvalue (xi hi lo r) k)).
  2:{ intros k Hk. apply in_seq in Hk. rewrite get_map_seq by lia. reflexivity. }
  cbn [bind]. rewrite (mapM_ok_in _ (fun k => vv_deriv2r hi lo r * rvalue (xi hi lo r) k + vv_result hi lo r * rderiv R 0 1 r_vnext r_dnext Rmult xi xi_deriv2r hi lo r k)).
  2:{ intros k Hk. apply in_seq in Hk. rewrite !get_map_seq by lia. reflexivity. }
  cbn [bind]. do 2 eexists. split; reflexivity.
Qed.
Lemma meaning_accepts (l : list (command R)) vs0 vs first cb x n hi lo r : meaning_all R first cb l vs0 = Some vs ->
  (forall y m h o q, holds R vs0 y = Some (Full R m h o (Some q)) -> cb h o q = true) -> (match first with Full _ _ _ _ _ => False | _ => True end) -> holds R vs x = Some (Full R n hi lo (Some r)) -> cb hi lo r = true.
Proof.
  revert vs0. induction l as [|c l IH]; intros vs0 M H0 Hf E; cbn [meaning_all] in M; [injection M as ->; eauto|].
  destruct (meaning R first cb c vs0) as [vs1|] eqn:Ec; [|discriminate]. apply (IH vs1); auto. clear M E IH.
  assert (forall (vs : values R) y v z w, holds R (replace vs y v) z = Some w -> (v = Some w) \/ holds R vs z = Some w) as Hr.
  { intros us y v z w. unfold holds. revert y z. induction us as [|a us IH]; intros [|y] [|z]; cbn; try apply IH; intuition. }
  intros y m h o q E. destruct c as [z|z k a b|z z'|z z'|z z'|z z'|z t|z]; cbn [meaning] in Ec;
    repeat match type of Ec with context [match ?e with _ => _ end] => let X := fresh "X" in destruct e eqn:X; try discriminate end;
    injection Ec as <-; repeat (apply Hr in E; destruct E as [E|E]; [try discriminate E; try (injection E; intros; subst)|]); subst; try contradiction; eauto.
Qed.

Lemma real_q_ok n l vs : meaning_all R (Raw R) (fun _ _ _ => true) l (repeat None n) = Some vs ->
  exists s, run R _ real_q l (start R _ n) = HOk s /\ forall x m hi lo r, holds R vs x = Some (Full R m hi lo (Some r)) ->
  exists v d, seen R _ real_q s x = HOk (m, [], [v; d]) /\ forall old, sized m old -> mq_build m hi lo r old = Ok (v, d).
Proof.
  intros M. destruct (q_programs 0 1 r_vnext r_dnext Rmult Rplus xi xi_deriv2r r_inside vv_result vv_deriv2r n l vs M) as (s & E & Sx & _). exists s. split; [exact E|].
  intros x m hi lo r Hx. specialize (Sx x). rewrite Hx in Sx. cbn [shows] in Sx.
  unfold q_tables in Sx. do 2 eexists. split; [exact Sx|]. intros old Ho. destruct (q_tables_ok m hi lo r old Ho) as (v & d & -> & Et). unfold q_tables in Et. injection Et as -> ->. reflexivity.
Qed.
Lemma real_poly_ok n l vs : meaning_all R (Empty R) (fun _ _ _ => true) l (repeat None n) = Some vs ->
  exists s, run R _ real_poly l (start R _ n) = HOk s /\ forall x m hi lo r, holds R vs x = Some (Full R m hi lo (Some r)) ->
  exists v d e, seen R _ real_poly s x = HOk (m, [], [v; d; e]) /\ forall old, sized m old -> poly_build m hi lo r old = Ok (v, d, e).
Proof.
  intros M. destruct (poly_programs 0 1 r_vnext r_dnext Rmult xi xi_deriv2r r_inside n l vs M) as (s & E & Sx & _). exists s. split; [exact E|].
  intros x m hi lo r Hx. specialize (Sx x). rewrite Hx in Sx. cbn [shows] in Sx. rewrite cut_tables in Sx.
  do 3 eexists. split; [exact Sx|]. intros old Ho. destruct (poly_tables m hi lo r old Ho) as (v & d & e & -> & Et). rewrite cut_tables in Et. injection Et as -> -> ->. reflexivity.
Qed.
Lemma none_full n x m hi lo q : holds R (repeat None n) x = Some (Full R m hi lo q) -> False.
Proof. unfold holds. destruct (nth_error (repeat None n) x) as [v|] eqn:E; [|discriminate]. apply nth_error_In, repeat_spec in E. subst. discriminate. Qed.
Lemma real_rb_ok n l vs : meaning_all R (Empty R) r_accepted l (repeat None n) = Some vs ->
  exists s, run R _ real_rb l (start R _ n) = HOk s /\ forall x m hi lo r, holds R vs x = Some (Full R m hi lo (Some r)) ->
  exists v d e, seen R _ real_rb s x = HOk (m, [hi; lo], [v; d; e]) /\ forall old, sized m old -> rb_build m hi lo r old = Ok (v, d, e).
Proof.
  intros M. destruct (rb_programs 0 1 r_vnext r_dnext Rmult xi xi_deriv2r r_accepted n l vs M) as (s & E & Sx & _). exists s. split; [exact E|].
  intros x m hi lo r Hx. assert (r_accepted hi lo r = true) as Ac. { eapply meaning_accepts; [exact M| |exact I|exact Hx]. intros y m' h o q Hy. exfalso. eapply none_full; eauto. }
  specialize (Sx x). rewrite Hx in Sx. cbn [shows] in Sx. unfold polynomials in Sx. do 3 eexists. split; [exact Sx|]. intros old Ho.
  destruct (rb_tables m hi lo r old Ho Ac) as (v & d & e & -> & Et). unfold polynomials in Et. injection Et as -> -> ->. reflexivity.
Qed.
Lemma real_rq_ok n l vs : meaning_all R (Empty R) r_accepted l (repeat None n) = Some vs ->
  exists s, run R _ real_rq l (start R _ n) = HOk s /\ forall x m hi lo r, holds R vs x = Some (Full R m hi lo (Some r)) ->
  exists v d, seen R _ real_rq s x = HOk (m, [hi; lo], [v; d]) /\ forall old, sized m old -> rq_build m hi lo r old = Ok (v, d).
Proof.
  intros M. destruct (rq_programs 0 1 r_vnext r_dnext Rmult Rplus xi xi_deriv2r r_inside r_accepted vv_result vv_deriv2r n l vs M) as (s & E & Sx & _). exists s. split; [exact E|].
  intros x m hi lo r Hx. assert (r_accepted hi lo r = true) as Ac. { eapply meaning_accepts; [exact M| |exact I|exact Hx]. intros y m' h o q Hy. exfalso. eapply none_full; eauto. }
  specialize (Sx x). rewrite Hx in Sx. cbn [shows] in Sx. unfold rq_tables in Sx. do 2 eexists. split; [exact Sx|]. intros old Ho.
  destruct (rq_tables_ok m hi lo r old Ho Ac) as (v & d & -> & Et). unfold rq_tables in Et. injection Et as -> ->. reflexivity.
Qed.
