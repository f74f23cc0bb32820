(** Properties C03, C04: extracting numbers from trajectory frames. *)
From Verif Require Import Text MovementModel MovementSpec ExtractorModel ExtractorProofs ExtractorSpec ExtractorContent ExtractorLabels.

(** C03.  When the all-frames extraction succeeds, every field has one row per
    frame, and extracting frame k alone succeeds with the same fields in the
    same order, each the k-th row of that field. *)
Theorem C03_single_vs_all : forall F pfloat pint fzero file x cols,
  mve_open F pfloat file = Ok x ->
  get_frames_info F pfloat pint fzero x = Ok cols ->
  Forall (fun col => length col = num_frames (me_mv x)) cols /\
  forall k, k < num_frames (me_mv x) ->
    exists row, get_frame_info F pfloat pint fzero x k = Ok row /\
                map (fun col => nth_error col k) cols = map Some row.
Proof. exact single_vs_all. Qed.
Print Assumptions C03_single_vs_all.

(** The fields of a frame, in order of their labels, are what its text says: lattice, types and
    coordinates, forces (zeros without a force block), virial, atomic energies.  [n] is the number
    of atoms in the first line. *)
Theorem C03_content : forall F pfloat pint fzero file x k row txt d,
  mve_open F pfloat file = Ok x -> get_frame_info F pfloat pint fzero x k = Ok row -> get_frame_str (me_mv x) k = Ok txt -> search_num_atoms txt = Some d ->
  let n := N.to_nat (digits_to_N d) in let lines := split_on nl txt in
  length row = length (get_info_labels x) /\
  (exists block types rows, block_of "POSITION" n lines block /\ nth_error row 1 = Some types /\ nth_error row 2 = Some (concat rows) /\
     Forall2 (fun l z => reads pint (words 0 1 l) [z]) block types /\ Forall2 (fun l c => reads pfloat (words 1 4 l) c) block rows) /\
  (exists pre head a b c post xs ys zs, lines = pre ++ head :: a :: b :: c :: post /\ heads "LATTICE" head /\ Forall (fun l => ~ heads "LATTICE" l) pre /\
     reads pfloat (words 0 3 a) xs /\ reads pfloat (words 0 3 b) ys /\ reads pfloat (words 0 3 c) zs /\ nth_error row 0 = Some (xs ++ ys ++ zs)) /\
  (forall block rows m, block_of "FORCE" n lines block -> Forall2 (fun l c => reads pfloat (words 1 4 l) c) block rows -> Forall (fun c => length c = m) rows -> nth_error row 4 = Some (concat rows)) /\
  (Forall (fun l => ~ heads "FORCE" l) lines -> nth_error row 4 = Some (repeat fzero (n * 3))) /\
  (forall j, nth_error (get_info_labels x) j = Some "virial" -> exists pre head a b c post xs ys zs, lines = pre ++ head :: a :: b :: c :: post /\ heads "LATTICE" head /\ Forall (fun l => ~ heads "LATTICE" l) pre /\
     ends_with pfloat a xs /\ ends_with pfloat b ys /\ ends_with pfloat c zs /\ nth_error row j = Some (xs ++ ys ++ zs)) /\
  (forall block xs j, block_of "ATOMIC-ENERGY, " n lines block -> Forall2 (fun l y => reads pfloat (words 1 2 l) [y]) block xs -> nth_error (get_info_labels x) j = Some "etaoms" -> nth_error row j = Some xs).
Proof. exact content. Qed.
Print Assumptions C03_content.

(** Which fields there are is decided by the first frame alone: a virial exactly when its three
    lattice rows all mention the stress, atomic energies exactly when it has a readable block of
    them.  The number parser raises ValueError only. *)
Theorem C03_labels : forall (F : Type) (pfloat : string -> result F), (forall t e, pfloat t = Err e -> e = ValueError) ->
  forall file x txt d, mve_open F pfloat file = Ok x -> get_frame_str (me_mv x) 0 = Ok txt -> search_num_atoms txt = Some d ->
  let n := N.to_nat (digits_to_N d) in let lines := split_on nl txt in
  (In "virial" (get_info_labels x) <-> exists a b c, three_after "LATTICE" lines a b c /\ mentions "STRESS" a /\ mentions "STRESS" b /\ mentions "STRESS" c) /\
  (In "etaoms" (get_info_labels x) <-> exists block xs, block_of "ATOMIC-ENERGY, " n lines block /\ Forall2 (fun l y => reads pfloat (words 1 2 l) [y]) block xs) /\
  exists o, get_info_labels x = ["box"; "types"; "coords"; "etot"; "fatoms"] ++ o /\ In o [[]; ["virial"]; ["etaoms"]; ["virial"; "etaoms"]].
Proof. exact (fun F pf => labels_first F pf pf). Qed.
Print Assumptions C03_labels.

(** C04.  Magnetic moments of a frame raise AttributeError whatever the frame
    contains, and no extraction result ever carries that label. *)
Theorem C04_magmoms_never : forall F pfloat e, get_magmoms F pfloat e = Err AttributeError.
Proof. exact magmoms_raise. Qed.
Print Assumptions C04_magmoms_never.

Theorem C04_no_magmoms_field : forall F pfloat file x,
  mve_open F pfloat file = Ok x -> ~ In "magmoms" (get_info_labels x).
Proof. exact (fun F pf => labels_no_magmoms F pf pf). Qed.
Print Assumptions C04_no_magmoms_field.

(** Case: two frames with all blocks, numbers kept as text; the second one has
    a magnetic block too. *)
Definition ex_frame (a : string) (extra : list string) : string :=
  concat_str (map (fun l => l +++ String nl "")
   (["1 atoms,Iteration (fs) = 0, Etot,Ep,Ek (eV) = " +++ a +++ " 2 3, SCF = 1"; "Lattice vector";
     "1 0 0 stress 7 8 " +++ a; "0 1 0 stress 7 8 9"; "0 0 1 stress 7 8 9"; "Position"; "14 0.5 0.5 " +++ a;
     "Force"; "14 4 5 6"; "Atomic-Energy, E"; "14 1.5 x"] ++ extra ++ [dash_run 38])).
Definition ex_file : string := ex_frame "0.1" [] +++ ex_frame "0.2" ["Magnetic moment"; "14 2.0"].
Example C03_case :
  exists x cols, mve_open string Ok ex_file = Ok x /\
    get_frames_info string Ok Ok "0" x = Ok cols /\ num_frames (me_mv x) = 2 /\ length cols = 7 /\
    get_frame_info string Ok Ok "0" x 1 =
      Ok [["1"; "0"; "0"; "0"; "1"; "0"; "0"; "0"; "1"]; ["14"]; ["0.5"; "0.5"; "0.2"]; ["0.2"];
          ["4"; "5"; "6"]; ["7"; "8"; "0.2"; "7"; "8"; "9"; "7"; "8"; "9"]; ["1.5"]] /\
    get_info_labels x = ["box"; "types"; "coords"; "etot"; "fatoms"; "virial"; "etaoms"].
Proof.
  do 2 eexists. split; [vm_compute; reflexivity|]. split; [vm_compute; reflexivity|].
  repeat split; vm_compute; reflexivity.
Qed.

(** Case: a second frame with more to say than the first. *)
Example C03_labels_case : exists x, mve_open string Ok (concat_str (map (fun l => l +++ String nl "") ["1 atoms, x"; "Lattice"; "1 0 0"; "0 1 0"; "0 0 1"; dash_run 38]) +++ ex_frame "0.1" []) = Ok x /\
  num_frames (me_mv x) = 2 /\ get_info_labels x = ["box"; "types"; "coords"; "etot"; "fatoms"].
Proof. eexists. split; [vm_compute; reflexivity|]. split; vm_compute; reflexivity. Qed.
