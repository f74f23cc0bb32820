(** Properties C09-C16: enlarging and reordering structures. *)
From Verif Require Import Vec StructModel StructSpec StructProofs SiteIndexModel SiteIndexSpec SiteIndexProofs StructGlue.
From Coq Require Import Sorting.Permutation Sorting.Sorted.
Open Scope nat_scope.

(** ** C09 *)

(** Enlarging succeeds exactly for the empty structure or positive odd factors. *)
Theorem C09_success_iff_odd :
  forall (A B C : vec) s0 s1 s2 mark (sites : list (Z * vec)),
  (exists out, make_supercell_ vec (translate_R A B C) s0 s1 s2 mark sites = Ok out) <->
  sites = [] \/ (positive_odd s0 /\ positive_odd s1 /\ positive_odd s2).
Proof. exact (fun A B C => supercell_success_iff vec (translate_R A B C)). Qed.
Print Assumptions C09_success_iff_odd.

(** Otherwise the length assertion fails. *)
Theorem C09_even_fails :
  forall (A B C : vec) s0 s1 s2 mark (sites : list (Z * vec)), sites <> [] ->
  ~ (positive_odd s0 /\ positive_odd s1 /\ positive_odd s2) ->
  make_supercell_ vec (translate_R A B C) s0 s1 s2 mark sites = Err AssertionError.
Proof. exact (fun A B C => supercell_fail vec (translate_R A B C)). Qed.
Print Assumptions C09_even_fails.

(** The number of sites. *)
Theorem C09_length :
  forall (A B C : vec) s0 s1 s2 mark (sites out : list (Z * vec)), sites <> [] ->
  make_supercell_ vec (translate_R A B C) s0 s1 s2 mark sites = Ok out ->
  Z.of_nat (length out) = (Z.of_nat (length sites) * s0 * s1 * s2)%Z.
Proof. exact supercell_length. Qed.
Print Assumptions C09_length.

(** Cases: a factor 2 fails, factors 3, 1, 5 succeed. *)
Example C09_case_even : make_supercell_ nat (fun _ p => p) 3 2 1 true [(14%Z, 0); (8%Z, 1)] = Err AssertionError.
Proof. reflexivity. Qed.
Example C09_case_odd : exists out, make_supercell_ nat (fun _ p => p) 3 1 5 false [(14%Z, 0); (8%Z, 1)] = Ok out /\ length out = 30.
Proof. eexists. split; vm_compute; reflexivity. Qed.

(** ** C10 *)

(** For odd factors the sites are, for one list of integer triples without
    repetition that starts with (0,0,0) and covers exactly the centred box, the
    original sites shifted by each triple in turn. *)
Theorem C10_exact_images :
  forall (A B C : vec) s0 s1 s2 (sites : list (Z * vec)),
  positive_odd s0 -> positive_odd s1 -> positive_odd s2 ->
  exists shifts rest,
    shifts = (0, 0, 0)%Z :: rest /\ NoDup shifts /\ (forall t, In t shifts <-> in_box s0 s1 s2 t) /\
    make_supercell_ vec (translate_R A B C) s0 s1 s2 false sites =
    Ok (flat_map (fun t => let '(i, j, k) := t in
          map (fun s => (fst s, vadd (snd s) (comb A B C (IZR i) (IZR j) (IZR k)))) sites) shifts).
Proof. exact supercell_images. Qed.
Print Assumptions C10_exact_images.

(** The original sites come first, at their own positions. *)
Theorem C10_originals_first :
  forall (A B C : vec) s0 s1 s2 (sites out : list (Z * vec)),
  positive_odd s0 -> positive_odd s1 -> positive_odd s2 ->
  make_supercell_ vec (translate_R A B C) s0 s1 s2 false sites = Ok out ->
  exists rest, out = sites ++ rest.
Proof. exact supercell_originals. Qed.
Print Assumptions C10_originals_first.

Example C10_case : positive_odd 3 /\ in_box 3 1 5 (-1, 0, 2)%Z /\ ~ in_box 3 1 5 (-1, 1, 2)%Z.
Proof. repeat split; try (exists 1%Z; reflexivity); cbn; lia. Qed.

(** ** C11 *)

Theorem C11_key_indices :
  forall (A B C : vec) s0 s1 s2 (sites : list (Z * vec)),
  positive_odd s0 -> positive_odd s1 -> positive_odd s2 ->
  exists idxs sup,
    get_key_idxs vec (translate_R A B C) s0 s1 s2 sites = Ok idxs /\
    make_supercell_ vec (translate_R A B C) s0 s1 s2 true sites = Ok sup /\
    length idxs = length sites /\ StronglySorted lt idxs /\
    map (nth_error sup) idxs = map Some (reformat_elements_ vec sites).
Proof. exact (fun A B C s0 s1 s2 sites H0 H1 H2 => key_idxs_spec vec (translate_R A B C) s0 s1 s2 sites H0 H1 H2 (translate_R_zero A B C)). Qed.
Print Assumptions C11_key_indices.

Definition toy_translate (t : Z * Z * Z) (p : Z) : Z := let '(a, b, c) := t in (p + 1000 * a + 100 * b + 10 * c)%Z.
Example C11_case :
  get_key_idxs Z toy_translate 3 1 1 [(14, 1); (8, 2); (14, 3)]%Z = Ok [0; 3; 4].
Proof. reflexivity. Qed.

(** ** C12 *)

Theorem C12_stable_by_element :
  forall (P : Type) (sites : list (Z * P)), stable_sorted fst sites (reformat_elements_ P sites).
Proof. exact (fun P => sort_stable (Z * P) fst). Qed.
Print Assumptions C12_stable_by_element.

(** There is only one such reordering. *)
Theorem C12_unique :
  forall (P : Type) (sites out : list (Z * P)), stable_sorted fst sites out -> out = reformat_elements_ P sites.
Proof. exact (fun P sites out H => stable_sorted_unique fst sites out _ H (sort_stable _ fst sites)). Qed.
Print Assumptions C12_unique.

Theorem C12_idempotent :
  forall (P : Type) (sites : list (Z * P)), reformat_elements_ P (reformat_elements_ P sites) = reformat_elements_ P sites.
Proof. exact (fun P sites => sort_id (Z * P) fst _ (sort_sorted (Z * P) fst sites)). Qed.
Print Assumptions C12_idempotent.

Example C12_case : reformat_elements_ Z [(14, 0); (8, 1); (14, 2); (1, 3); (8, 4)]%Z = [(1, 3); (8, 1); (8, 4); (14, 0); (14, 2)]%Z.
Proof. reflexivity. Qed.

(** ** C13 *)

(** Coordinates never move; species stay with their coordinates exactly when the
    species sequence is already grouped in the requested order. *)
Theorem C13_species_kept_iff_grouped :
  forall (P M : Type) elements (sites out : list (Z * P * M)), NoDup elements ->
  reformat_elements P elements sites = Ok out ->
  map (fun s => snd (fst s)) out = map (fun s => snd (fst s)) sites /\
  (map (fun s => fst (fst s)) out = map (fun s => fst (fst s)) sites <->
   grouped elements (map (fun s => fst (fst s)) sites)).
Proof.
  exact (fun P M elements sites out Hnd H =>
    conj (proj1 (reformat_result P M elements sites out H)) (reformat_species_kept P M elements sites out Hnd H)).
Qed.
Print Assumptions C13_species_kept_iff_grouped.

(** It succeeds exactly when every species is listed. *)
Theorem C13_success_iff_listed :
  forall (P M : Type) elements (sites : list (Z * P * M)), NoDup elements ->
  ((exists out, reformat_elements P elements sites = Ok out) <->
   Forall (fun s => In (fst (fst s)) elements) sites).
Proof. exact reformat_ok_iff. Qed.
Print Assumptions C13_success_iff_listed.

(** Otherwise it raises. *)
Theorem C13_unlisted_raises :
  forall (P M : Type) elements (sites : list (Z * P * M)), NoDup elements ->
  ~ Forall (fun s => In (fst (fst s)) elements) sites -> reformat_elements P elements sites = Err ValueError.
Proof. exact reformat_rejected. Qed.
Print Assumptions C13_unlisted_raises.

Example C13_unlisted_case : reformat_elements Z [8]%Z [(14, 0, 7); (8, 1, 9)]%Z = Err ValueError.
Proof. reflexivity. Qed.

(** The intended reordering (whole sites moved) is therefore not what happens. *)
Theorem C13_sites_kept_together_refuted :
  exists (elements : list Z) (sites : list (Z * Z * Z)) out, NoDup elements /\
    reformat_elements Z elements sites = Ok out /\
    In (14, 0, 7)%Z sites /\ ~ In (14, 0)%Z (map fst out).
Proof.
  exists [8; 14]%Z, [(14, 0, 7); (8, 1, 9)]%Z, [(8, 0, 9); (14, 1, 7)]%Z.
  split; [repeat constructor; cbn; intuition congruence|].
  split; [reflexivity|]. split; [left; reflexivity|]. cbn. intuition congruence.
Qed.
Print Assumptions C13_sites_kept_together_refuted.

Example C13_case : grouped [8; 14; 1]%Z [8; 8; 14]%Z /\ ~ grouped [8; 14]%Z [14; 8]%Z.
Proof.
  split; [exists 2, [14]%Z; split; [reflexivity|]; exists 1, []; split; [reflexivity|]; exists 0, []; split; reflexivity|].
  rewrite <- grouped_iff by (repeat constructor; cbn; intuition congruence). discriminate.
Qed.

(** ** C14 *)

(** What stays is exactly the real atoms if and only if there is at most one
    vacancy or no vacancy index is below the number of real atoms. *)
Theorem C14_correct_iff :
  forall (is_vac : Z -> bool) (P : Type) (sites : list (Z * P)),
  remove_vacanies P is_vac sites = filter (fun s => negb (is_vac (fst s))) sites <->
  length (filter (fun s => is_vac (fst s)) sites) <= 1 \/
  (forall j s, nth_error sites j = Some s -> is_vac (fst s) = true ->
     length (filter (fun s => negb (is_vac (fst s))) sites) <= j).
Proof. exact vacancies_correct_iff. Qed.
Print Assumptions C14_correct_iff.

(** No vacancy ever stays and nothing is reordered: what stays is the real atoms with some left
    out, and when it is not all of them there are fewer. *)
Theorem C14_only_loses :
  forall (is_vac : Z -> bool) (P : Type) (sites : list (Z * P)),
  leaves_out (remove_vacanies P is_vac sites) (filter (fun s => negb (is_vac (fst s))) sites) /\
  (remove_vacanies P is_vac sites <> filter (fun s => negb (is_vac (fst s))) sites ->
   length (remove_vacanies P is_vac sites) < length (filter (fun s => negb (is_vac (fst s))) sites)).
Proof. exact vacancies_only_lose. Qed.
Print Assumptions C14_only_loses.

(** Two vacancies among real atoms: a real atom is deleted as well. *)
Theorem C14_keeps_real_atoms_refuted :
  exists (sites : list (Z * Z)) s, In s sites /\ fst s <> 0%Z /\ ~ In s (remove_vacanies Z (Z.eqb 0) sites).
Proof.
  exists [(0, 0); (14, 1); (0, 2); (8, 3)]%Z, (14, 1)%Z. split; [cbn; auto|]. split; [cbn; lia|]. cbn. intuition congruence.
Qed.
Print Assumptions C14_keeps_real_atoms_refuted.

Example C14_case :
  remove_vacanies Z (Z.eqb 0) [(14, 0); (0, 1); (8, 2)]%Z = [(14, 0); (8, 2)]%Z /\
  remove_vacanies Z (Z.eqb 0) [(14, 0); (8, 1); (0, 2); (0, 3)]%Z = [(14, 0); (8, 1)]%Z /\
  remove_vacanies Z (Z.eqb 0) [(0, 0); (14, 1); (0, 2); (8, 3)]%Z = [(8, 3)]%Z.
Proof. repeat split. Qed.

(** ** C15 *)

(** Without an explicit order: the total, then one count per distinct element in
    order of first appearance. *)
Theorem C15_counts :
  forall (P : Type) (sites : list (Z * P)),
  exists keys, get_natoms P None sites = length sites :: map (fun z => count z (map fst sites)) keys /\
    NoDup keys /\ (forall z, In z keys <-> In z (map fst sites)) /\
    StronglySorted (fun a b => exists i j, first_at (map fst sites) a i /\ first_at (map fst sites) b j /\ i < j) keys /\
    Forall (fun z => 0 < count z (map fst sites)) keys /\
    fold_right plus 0 (map (fun z => count z (map fst sites)) keys) = length sites.
Proof. exact natoms_spec. Qed.
Print Assumptions C15_counts.

(** With an explicit (non-empty) element list: the counts of those elements. *)
Theorem C15_counts_in_given_order :
  forall (P : Type) (sites : list (Z * P)) k ks,
  exists counts, get_natoms P (Some (k :: ks)) sites = length sites :: counts /\
    Forall2 (fun z n => n = length (filter (fun s => (fst s =? z)%Z) sites)) (k :: ks) counts.
Proof. exact natoms_order_spec. Qed.
Print Assumptions C15_counts_in_given_order.

Example C15_case : get_natoms Z None [(14, 0); (8, 1); (14, 2); (1, 3)]%Z = [4; 2; 1; 1]
  /\ get_natoms Z (Some [1; 14; 6]%Z) [(14, 0); (8, 1); (14, 2); (1, 3)]%Z = [4; 1; 2; 0].
Proof. split; reflexivity. Qed.

(** ** C16 *)

(** For every rounding to a nearest integer (halves either way) and every
    non-degenerate lattice, the answer is one more than the index of the first
    site of which the position is a lattice image, and 0 if there is none. *)
Theorem C16_first_image :
  forall (rnd : R -> Z), (forall x, (Rabs (x - IZR (rnd x)) <= 1 / 2)%R) ->
  forall A B C : vec, det A B C <> 0%R ->
  forall (p : vec) (coords : list vec) (k : nat),
  get_site_index rnd A B C coords p = k <->
  (k = 0 /\ Forall (fun c => ~ lattice_image A B C c p) coords) \/
  (exists n c, k = n + 1 /\ nth_error coords n = Some c /\ lattice_image A B C c p /\
     forall m c', m < n -> nth_error coords m = Some c' -> ~ lattice_image A B C c' p).
Proof. exact site_index_spec. Qed.
Print Assumptions C16_first_image.

(** Case: such a rounding exists, the unit cube is a lattice, and the point
    (3, -2, 1/2) is an image of the site (0, 0, 1/2). *)
Example C16_case :
  (exists rnd : R -> Z, forall x, (Rabs (x - IZR (rnd x)) <= 1 / 2)%R) /\
  det (1, 0, 0)%R (0, 1, 0)%R (0, 0, 1)%R <> 0%R /\
  lattice_image (1, 0, 0)%R (0, 1, 0)%R (0, 0, 1)%R (0, 0, 1 / 2)%R (3, -2, 1 / 2)%R.
Proof.
  split; [exact rounding_exists|]. split; [vec_unfold; lra|].
  exists 3%Z, (-2)%Z, 0%Z, 0%R, 0%R, 0%R. rewrite Rabs_R0. split; [|lra].
  apply vec_eq; vec_unfold; lra.
Qed.
