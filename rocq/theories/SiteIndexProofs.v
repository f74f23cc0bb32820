From Verif Require Import Vec SiteIndexModel SiteIndexSpec.

Section SiteIndex.
Variable rnd : R -> Z.
Hypothesis rnd_near : forall x, Rabs (x - IZR (rnd x)) <= 1 / 2.

Lemma near_int x n : Rabs (x - IZR n) <= 1 / 10 ^ 10 -> rnd x = n.
Proof.
  intros H. pose proof (rnd_near x) as H1.
  assert (Hd : Rabs (IZR (rnd x - n)) < 1).
  { rewrite minus_IZR. replace (IZR (rnd x) - IZR n) with ((x - IZR n) - (x - IZR (rnd x))) by ring.
    eapply Rle_lt_trans; [apply Rabs_triang|]. rewrite Rabs_Ropp. lra. }
  rewrite <- abs_IZR in Hd. change 1 with (IZR 1) in Hd. apply lt_IZR in Hd. lia.
Qed.

Lemma almost_int_iff x : is_almost_int rnd x = true <-> exists (n : Z) e, x = IZR n + e /\ Rabs e <= 1 / 10 ^ 10.
Proof.
  unfold is_almost_int. destruct (Rle_dec _ _) as [H|H].
  - split; [intros _|reflexivity]. exists (rnd x), (x - IZR (rnd x)). split; [ring|exact H].
  - split; [discriminate|]. intros [n [e [-> He]]]. exfalso. apply H.
    assert (rnd (IZR n + e) = n) as -> by (apply near_int; replace (IZR n + e - IZR n) with e by ring; exact He).
    replace (IZR n + e - IZR n) with e by ring. exact He.
Qed.

Variables A B C : vec.
Hypothesis Hdet : det A B C <> 0.

Lemma coeff_solves d : comb A B C (vx (offset_coeff A B C d)) (vy (offset_coeff A B C d)) (vz (offset_coeff A B C d)) = d.
Proof.
  revert Hdet. destruct A as [[? ?] ?], B as [[? ?] ?], C as [[? ?] ?], d as [[? ?] ?]. intros H.
  unfold offset_coeff. vec_unfold. f_equal; [f_equal|]; field; exact H.
Qed.

Lemma coeff_unique d a b c : comb A B C a b c = d -> offset_coeff A B C d = (a, b, c).
Proof.
  intros <-. revert Hdet. destruct A as [[? ?] ?], B as [[? ?] ?], C as [[? ?] ?]. intros H.
  unfold offset_coeff. vec_unfold. f_equal; [f_equal|]; field; exact H.
Qed.

Lemma match_iff c p :
  (let k := offset_coeff A B C (vsub p c) in
   is_almost_int rnd (vx k) && is_almost_int rnd (vy k) && is_almost_int rnd (vz k)) = true <->
  lattice_image A B C c p.
Proof.
  cbv zeta. rewrite !andb_true_iff, !almost_int_iff. split.
  - intros [[[i [e [Hi He]]] [j [f [Hj Hf]]]] [k [g [Hk Hg]]]].
    exists i, j, k, e, f, g. split; [|auto]. rewrite <- Hi, <- Hj, <- Hk, coeff_solves.
    symmetry. apply vadd_vsub.
  - intros [i [j [k [e [f [g [Hp [He [Hf Hg]]]]]]]]].
    rewrite (coeff_unique (vsub p c) (IZR i + e) (IZR j + f) (IZR k + g)).
    + unfold vx, vy, vz. cbn [fst snd]. split; [split|]; eexists _, _; (split; [reflexivity|assumption]).
    + rewrite Hp. symmetry. apply vsub_vadd.
Qed.

Lemma site_index_from_spec p coords : forall idx,
  (site_index_from rnd A B C p idx coords = 0%nat /\ Forall (fun c => ~ lattice_image A B C c p) coords) \/
  (exists n c, site_index_from rnd A B C p idx coords = (idx + n + 1)%nat /\ nth_error coords n = Some c /\
     lattice_image A B C c p /\ forall m c', (m < n)%nat -> nth_error coords m = Some c' -> ~ lattice_image A B C c' p).
Proof.
  induction coords as [|c r IH]; intros idx; cbn [site_index_from]; [left; auto|].
  pose proof (match_iff c p) as Hm. cbv zeta in *.
  match goal with |- context [if ?b then _ else _] => destruct b eqn:E end.
  - right. exists 0%nat, c. split; [lia|]. split; [reflexivity|]. split; [apply Hm; reflexivity|]. intros. lia.
  - assert (Hc : ~ lattice_image A B C c p) by (intros H; apply Hm in H; congruence).
    destruct (IH (idx + 1)%nat) as [[H1 H2]|[n [c' [H1 [H2 [H3 H4]]]]]].
    + left. auto.
    + right. exists (S n), c'. split; [rewrite H1; lia|]. split; [exact H2|]. split; [exact H3|].
      intros [|m] c2 Hlt Hn; cbn in Hn; [injection Hn as <-; exact Hc|]. apply (H4 m c2); [lia|exact Hn].
Qed.

Lemma site_index_spec p coords k :
  get_site_index rnd A B C coords p = k <->
  (k = 0%nat /\ Forall (fun c => ~ lattice_image A B C c p) coords) \/
  (exists n c, k = (n + 1)%nat /\ nth_error coords n = Some c /\ lattice_image A B C c p /\
     forall m c', (m < n)%nat -> nth_error coords m = Some c' -> ~ lattice_image A B C c' p).
Proof.
  unfold get_site_index. destruct (site_index_from_spec p coords 0) as [[H1 H2]|[n [c [H1 [H2 [H3 H4]]]]]]; rewrite H1.
  - split; [intros <-; left; auto|]. intros [[-> _]|[n [c [_ [Hn [Hc _]]]]]]; [reflexivity|].
    exfalso. apply nth_error_In in Hn. rewrite Forall_forall in H2. exact (H2 c Hn Hc).
  - split.
    + intros <-. right. exists n, c. split; [lia|auto].
    + intros [[_ H]|[n' [c' [-> [Hn' [Hc' Hm']]]]]].
      * exfalso. apply nth_error_In in H2. rewrite Forall_forall in H. exact (H c H2 H3).
      * destruct (lt_eq_lt_dec n n') as [[Hl|Hl]|Hl]; [exfalso; exact (Hm' n c Hl H2 H3)|lia|exfalso; exact (H4 n' c' Hl Hn' Hc')].
Qed.
End SiteIndex.
