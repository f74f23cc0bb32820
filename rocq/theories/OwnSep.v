(** Reasoning about memory in parts: assertions with the blocks they speak about. *)
From Coq Require Import Permutation.
From Verif Require Import NestModel NestSpec NestProofs LifeModel LifeSpec LifeProofs LifeInv LifeMake LifeEnlarge LifeSteps.
Local Open Scope nat_scope.
Local Open Scope list_scope.

Definition asn : Type := heap -> list nat -> Prop.
Definition stable (A : asn) : Prop := forall h own, A h own ->
  (forall x, In x own -> alive h x) /\ NoDup own /\ forall h', agree (fun x => In x own) h h' -> A h' own.
(** All assertions at once, about different blocks. *)
Definition sep (l : list asn) (h : heap) (own : list nat) : Prop :=
  exists owns, Forall2 (fun A o => A h o) l owns /\ Permutation own (concat owns) /\ NoDup own.

Lemma concat_perm {A} (l l' : list (list A)) : Permutation l l' -> Permutation (concat l) (concat l').
Proof.
  induction 1 as [|x l l' P IH|x y l|l l' l'' P IH P' IH']; cbn [concat]; [constructor|now apply Permutation_app_head| |eapply Permutation_trans; eauto].
  rewrite !app_assoc. apply Permutation_app_tail, Permutation_app_comm.
Qed.
Lemma sep_perm l l' h own : Permutation l l' -> sep l h own -> sep l' h own.
Proof.
  intros P (owns & F & Po & N). destruct (Permutation_Forall2 P F) as (owns' & P' & F'). exists owns'. split; [exact F'|]. split; [|exact N].
  eapply Permutation_trans; [exact Po|]. now apply concat_perm.
Qed.
Lemma sep_app l1 l2 h own : sep (l1 ++ l2) h own -> exists o1 o2, sep l1 h o1 /\ sep l2 h o2 /\ Permutation own (o1 ++ o2) /\ NoDup (o1 ++ o2).
Proof.
  intros (owns & F & P & N). apply Forall2_app_inv_l in F. destruct F as (ow1 & ow2 & F1 & F2 & ->). rewrite concat_app in P.
  assert (NoDup (concat ow1 ++ concat ow2)) as N' by (eapply Permutation_NoDup; eauto).
  pose proof (NoDup_app_parts _ _ N') as (N1 & N2 & _).
  exists (concat ow1), (concat ow2). repeat split; auto; [exists ow1|exists ow2]; auto.
Qed.
Lemma sep_join l1 l2 h o1 o2 : sep l1 h o1 -> sep l2 h o2 -> (forall x, In x o1 -> ~ In x o2) -> sep (l1 ++ l2) h (o1 ++ o2).
Proof.
  intros (ow1 & F1 & P1 & N1) (ow2 & F2 & P2 & N2) D. exists (ow1 ++ ow2). split; [now apply Forall2_app|]. split.
  - rewrite concat_app. now apply Permutation_app.
  - apply NoDup_app_disjoint; auto.
Qed.
Lemma sep_nil h own : sep [] h own -> own = [].
Proof. intros (owns & F & P & _). inversion F; subst. now apply Permutation_sym, Permutation_nil in P. Qed.
Lemma nil_sep h : sep [] h [].
Proof. exists []. repeat split; constructor. Qed.
Lemma sep_one A h own : sep [A] h own -> exists o, A h o /\ Permutation own o /\ NoDup own.
Proof. intros (owns & F & P & N). inversion F as [|? o ? l HA F' E1 E2]; subst. inversion F'; subst. cbn [concat] in P. rewrite app_nil_r in P. eauto. Qed.
Lemma one_sep (A : asn) h own : A h own -> NoDup own -> sep [A] h own.
Proof. intros HA N. exists [own]. split; [repeat constructor; auto|]. split; [|exact N]. cbn. now rewrite app_nil_r. Qed.

Lemma sep_alive l h own : Forall stable l -> sep l h own -> forall x, In x own -> alive h x.
Proof.
  intros St (owns & F & P & _) x Hx. apply (Permutation_in _ P) in Hx. apply in_concat in Hx. destruct Hx as (o & Ho & Hx).
  clear P. induction F as [|A o' l owns HA F IH]; [easy|]. inversion St as [|? ? SA Sl]; subst. destruct Ho as [->|Ho]; [|now apply IH].
  destruct (SA _ _ HA) as (Al & _). auto.
Qed.
Lemma sep_agree l h h' own : Forall stable l -> sep l h own -> agree (fun x => In x own) h h' -> sep l h' own.
Proof.
  intros St (owns & F & P & N) Ag. exists owns. split; [|auto].
  assert (agree (fun x => In x (concat owns)) h h') as Ag' by (intros x Hx; apply Ag; eapply Permutation_in; [apply Permutation_sym|]; eauto).
  clear P N Ag. induction F as [|A o l owns HA F IH]; [constructor|]. inversion St as [|? ? SA Sl]; subst. constructor.
  - destruct (SA _ _ HA) as (_ & _ & Fr). apply Fr. intros x Hx. apply Ag'. cbn [concat]. apply in_or_app. auto.
  - apply IH; auto. intros x Hx. apply Ag'. cbn [concat]. apply in_or_app. auto.
Qed.

(** ** [changes] *)
Lemma changes_same (h h' : heap) own own' : Permutation own own' -> length h' = length h -> agree (fun x => ~ In x own) h h' -> changes h h' own own'.
Proof.
  intros P L A. assert (forall x, In x own <-> In x own') as E by (intros x; split; apply Permutation_in; [auto|now apply Permutation_sym]).
  split; [lia|]. split; [intros x _ Hx; now apply A|]. split; [intros x H1 H2; exfalso; apply H2; now apply E|]. split; [lia|].
  intros x Hx. left. now apply E.
Qed.
Lemma changes_refl h own : changes h h own own.
Proof. apply changes_same; auto. intros x _. reflexivity. Qed.
Lemma changes_trans h h1 h2 A B C : changes h h1 A B -> changes h1 h2 B C -> changes h h2 A C.
Proof.
  intros (L1 & F1 & G1 & K1 & N1) (L2 & F2 & G2 & K2 & N2). split; [lia|]. split; [|split; [|split]].
  - intros x Hx Ha. rewrite F2; [now apply F1|lia|]. intros Hb. destruct (N1 x Hb); [auto|lia].
  - intros x Ha Hc. destruct (in_dec Nat.eq_dec x B) as [Hb|Hb]; [now apply G2|]. pose proof (G1 x Ha Hb) as E.
    rewrite F2; auto. apply nth_error_Some. congruence.
  - intros x Hx Hc. destruct (in_dec Nat.eq_dec x B) as [Hb|Hb]; [now apply G2|]. destruct (Nat.lt_ge_cases x (length h1)) as [Hl|Hl].
    + rewrite F2 by auto. apply K1; [lia|auto].
    + apply K2; [lia|auto].
  - intros x Hc. destruct (N2 x Hc) as [Hb|Hl]; [|right; lia]. auto.
Qed.
Lemma changes_frame h h' A B R : changes h h' A B -> changes h h' (A ++ R) (B ++ R).
Proof.
  intros (L & F & G & K & N). split; [exact L|]. split; [|split; [|split]]; setoid_rewrite in_app_iff.
  - intros x Hx Hn. apply F; tauto.
  - intros x [Ha|Hr] Hn; [apply G; tauto|tauto].
  - intros x Hx Hn. apply K; tauto.
  - intros x [Hb|Hr]; [|auto]. destruct (N x Hb); auto.
Qed.
Lemma changes_members h h' A B A' B' : changes h h' A B -> (forall x, In x A <-> In x A') -> (forall x, In x B <-> In x B') -> changes h h' A' B'.
Proof.
  intros (L & F & G & K & N) EA EB. split; [exact L|]. split; [|split; [|split]].
  - intros x Hx Hn. apply F; auto. now rewrite EA.
  - intros x Ha Hb. apply G; [now apply EA|now rewrite EB].
  - intros x Hx Hb. apply K; auto. now rewrite EB.
  - intros x Hb. rewrite <- EA. apply N. now apply EB.
Qed.
Lemma perm_members {A} (l l' : list A) : Permutation l l' -> forall x, In x l <-> In x l'.
Proof. intros P x. split; apply Permutation_in; [auto|now apply Permutation_sym]. Qed.

(** ** Operations *)
(** From memory that meets [P], and any other memory, the operation succeeds and gives [Q]. *)
Definition spec {B} (op : heap -> hres (B * heap)) (P : list asn) (phi : B -> Prop) (Q : B -> list asn) : Prop :=
  forall h own, sep P h own -> exists a h' new, op h = HOk (a, h') /\ phi a /\ changes h h' own new /\ sep (Q a) h' new.
Definition act (op : heap -> hres heap) (P Q : list asn) : Prop :=
  forall h own, sep P h own -> exists h' new, op h = HOk h' /\ changes h h' own new /\ sep Q h' new.
Definition reads {B} (op : heap -> hres B) (P : list asn) (a : B) : Prop := forall h own, sep P h own -> op h = HOk a.

(** The memory now, compared with the memory at the start. *)
Definition now (h0 : heap) (own0 : list nat) (l : list asn) (h : heap) : Prop := exists own, changes h0 h own0 own /\ sep l h own.
Lemma now_start l h own : sep l h own -> now h own l h.
Proof. intros S0. exists own. split; [apply changes_refl|auto]. Qed.
Lemma now_perm h0 own0 l l' h : now h0 own0 l h -> Permutation l l' -> now h0 own0 l' h.
Proof. intros (own & C & S1) P. exists own. split; auto. eapply sep_perm; eauto. Qed.

Lemma frame_step R P Q' h own h' new o1 o2 : Forall stable P -> Forall stable R ->
  sep P h o1 -> sep R h o2 -> Permutation own (o1 ++ o2) -> NoDup (o1 ++ o2) -> changes h h' o1 new -> sep Q' h' new ->
  exists new', changes h h' own new' /\ sep (Q' ++ R) h' new'.
Proof.
  intros SP SR S1 S2 Po N C S'. pose proof (NoDup_app_parts _ _ N) as (_ & _ & D).
  pose proof (sep_alive _ _ _ SR S2) as Al2. exists (new ++ o2). split.
  - eapply changes_members; [apply (changes_frame _ _ _ _ o2 C)|apply perm_members; now apply Permutation_sym|intros; reflexivity].
  - apply sep_join; auto.
    + eapply sep_agree; eauto. intros x Hx. destruct C as (_ & F & _). apply F; [apply alive_lt; auto|]. intros Hx1. exact (D x Hx1 Hx).
    + intros x Hx H2. destruct C as (_ & _ & _ & _ & Nw). destruct (Nw x Hx) as [H1|Hl]; [exact (D x H1 H2)|].
      pose proof (alive_lt _ _ (Al2 x H2)). lia.
Qed.
Lemma now_spec {B} (op : heap -> hres (B * heap)) P phi Q R h0 own0 l h : Forall stable P -> Forall stable R -> spec op P phi Q ->
  now h0 own0 l h -> Permutation (P ++ R) l -> exists a h', op h = HOk (a, h') /\ phi a /\ now h0 own0 (Q a ++ R) h'.
Proof.
  intros SP SR HS (own & C & S0) Pm. apply (sep_perm _ _ _ _ (Permutation_sym Pm)) in S0. destruct (sep_app _ _ _ _ S0) as (o1 & o2 & S1 & S2 & Po & N).
  destruct (HS h o1 S1) as (a & h' & new & E & Ph & C1 & S'). destruct (frame_step R P (Q a) h own h' new o1 o2) as (new' & C' & S''); auto.
  exists a, h'. split; [exact E|]. split; [exact Ph|]. exists new'. split; auto. eapply changes_trans; eauto.
Qed.
Lemma now_act (op : heap -> hres heap) P Q R h0 own0 l h : Forall stable P -> Forall stable R -> act op P Q ->
  now h0 own0 l h -> Permutation (P ++ R) l -> exists h', op h = HOk h' /\ now h0 own0 (Q ++ R) h'.
Proof.
  intros SP SR HS (own & C & S0) Pm. apply (sep_perm _ _ _ _ (Permutation_sym Pm)) in S0. destruct (sep_app _ _ _ _ S0) as (o1 & o2 & S1 & S2 & Po & N).
  destruct (HS h o1 S1) as (h' & new & E & C1 & S'). destruct (frame_step R P Q h own h' new o1 o2) as (new' & C' & S''); auto.
  exists h'. split; [exact E|]. exists new'. split; auto. eapply changes_trans; eauto.
Qed.
Lemma now_reads {B} (op : heap -> hres B) P R a h0 own0 l h : reads op P a -> now h0 own0 l h -> Permutation (P ++ R) l -> op h = HOk a.
Proof.
  intros HS (own & C & S0) Pm. apply (sep_perm _ _ _ _ (Permutation_sym Pm)) in S0. destruct (sep_app _ _ _ _ S0) as (o1 & o2 & S1 & S2 & Po & N). eapply HS; eauto.
Qed.
Lemma now_end h own l h' : now h own l h' -> exists new, changes h h' own new /\ sep l h' new.
Proof. auto. Qed.

(** Permutations of lists written out. *)
Ltac perm_pick := first [ apply perm_skip | eapply (Permutation_cons_app [_] _) | eapply (Permutation_cons_app [_; _] _) | eapply (Permutation_cons_app [_; _; _] _)
  | eapply (Permutation_cons_app [_; _; _; _] _) | eapply (Permutation_cons_app [_; _; _; _; _] _) | eapply (Permutation_cons_app [_; _; _; _; _; _] _)
  | eapply (Permutation_cons_app [_; _; _; _; _; _; _] _) | eapply (Permutation_cons_app [_; _; _; _; _; _; _; _] _) | eapply (Permutation_cons_app [_; _; _; _; _; _; _; _; _] _)
  | eapply (Permutation_cons_app [_; _; _; _; _; _; _; _; _; _] _) ].
Ltac perm := cbn [app]; first [apply Permutation_refl | perm_pick; perm].
