(** Properties C01, C02, C05, C06, C07: frames of a MOVEMENT trajectory. *)
From Verif Require Import Text MovementModel MovementSpec MovementProofs.
From Verif Require ExtractorSpec ExtractorLabels.

(** C01.  If the file has a separator line, opening it succeeds and the frames
    it hands out, in order, are exactly the file cut after each separator line;
    that cut is unique.  Without a separator line opening raises IndexError. *)
Theorem C01_frames_partition : forall file, has_separator file ->
  exists m frames tail,
    mv_open file = Ok m /\
    mapM (get_frame_str m) (seq 0 (num_frames m)) = Ok frames /\
    cut_into file frames tail.
Proof. exact frames_partition. Qed.
Print Assumptions C01_frames_partition.

Theorem C01_cut_unique : forall file fs1 t1 fs2 t2,
  cut_into file fs1 t1 -> cut_into file fs2 t2 -> fs1 = fs2 /\ t1 = t2.
Proof. exact cut_unique. Qed.
Print Assumptions C01_cut_unique.

Theorem C01_no_separator : forall file, ~ has_separator file -> mv_open file = Err IndexError.
Proof. exact no_separator_error. Qed.
Print Assumptions C01_no_separator.

(** C02.  Random access to a frame returns what the sequential reader returns
    at that position, and raises IndexError exactly past the last one. *)
Theorem C02_random_access : forall file m k, mv_open file = Ok m ->
  get_frame_str m k =
    match nth_error (read_sequential m) k with Some t => Ok t | None => Err IndexError end /\
  num_frames m = List.length (read_sequential m).
Proof. exact random_access. Qed.
Print Assumptions C02_random_access.

(** Case: two frames of two lines and a line that belongs to no frame. *)
Definition ex_file : string :=
  "2 atoms" +++ String nl (dash_run 40) +++ String nl "3 atoms" +++ String nl (dash_run 38 +++ " x")
  +++ String nl "rest".
Example C01_case :
  exists m, mv_open ex_file = Ok m /\ num_frames m = 2 /\
    mapM (get_frame_str m) (seq 0 2) =
      Ok ["2 atoms" +++ String nl (dash_run 40) +++ String nl "";
          "3 atoms" +++ String nl (dash_run 38 +++ " x") +++ String nl ""] /\
    get_frame_str m 2 = Err IndexError.
Proof. eexists. repeat split; vm_compute; reflexivity. Qed.
Example C01_case_hyp : has_separator ex_file.
Proof.
  right. left. exists "", ("--" +++ String nl ""). vm_compute. reflexivity.
Qed.

(** C05.  Building a structure from frame text raises, whatever the text, the
    format and the constructor; so every accessor of structures raises on every
    trajectory that opens. *)
Theorem C05_from_str_raises : forall (S : Type) mk fmt txt,
  (fmt = "pwmat" -> @from_str S mk fmt txt = Err AttributeError) /\ (fmt <> "pwmat" -> @from_str S mk fmt txt = Err ValueError).
Proof. exact @from_str_exact. Qed.
Print Assumptions C05_from_str_raises.

Theorem C05_structures_unavailable : forall (S : Type) mk file m, mv_open file = Ok m ->
  (exists e, get_all_frame_structures S (from_str mk "pwmat") m = Err e) /\
  (forall k, exists e, get_frame_structure S (from_str mk "pwmat") m k = Err e) /\
  (forall F pfloat chk, exists e, get_all_frame_structures_info F pfloat S (from_str mk "pwmat") chk m = Err e).
Proof. exact @structures_unavailable. Qed.
Print Assumptions C05_structures_unavailable.

(** C06.  Header "n atoms,Iteration (fs) = t Etot,Ep,Ek (eV) = a b c ...":
    the bulk reader returns a, b and c without a trailing comma. *)
Theorem C06_bulk_energy_new_header : forall F pfloat row rest n t a b c more,
  single_line row -> ~ mentions_equals n -> ~ mentions_equals t ->
  words row ([n; "atoms,Iteration"; "(fs)"; "="; t; "Etot,Ep,Ek"; "(eV)"; "="; a; b; c] ++ more) ->
  bulk_energy_of_text F pfloat (row +++ String nl rest) = read3 pfloat a b (without_comma c).
Proof. exact new_header_bulk. Qed.
Print Assumptions C06_bulk_energy_new_header.

(** Header "n atoms,Iteration= t Etot,Ep,Ek= a b c ...". *)
Theorem C06_bulk_energy_old_header : forall F pfloat row rest n t a b c more,
  single_line row -> ~ mentions_equals n -> ~ mentions_equals t ->
  words row ([n; "atoms,Iteration="; t; "Etot,Ep,Ek="; a; b; c] ++ more) ->
  bulk_energy_of_text F pfloat (row +++ String nl rest) = read3 pfloat a b (without_comma c).
Proof. exact old_header_bulk. Qed.
Print Assumptions C06_bulk_energy_old_header.

(** The single-frame reader: the last character of the third field is always
    dropped, comma or not ... *)
Theorem C06_frame_energy_new_header : forall F pfloat row rest n t a b c more,
  single_line row ->
  words row ([n; "atoms,Iteration"; "(fs)"; "="; t; "Etot,Ep,Ek"; "(eV)"; "="; a; b; c] ++ more) ->
  frame_energy_of_text F pfloat (row +++ String nl rest) = read3 pfloat a b (drop_last c).
Proof. exact new_header_frame. Qed.
Print Assumptions C06_frame_energy_new_header.

(** ... and the short header of older files is rejected. *)
Theorem C06_frame_energy_old_header_fails : forall F pfloat row rest n t a b c,
  single_line row ->
  words row [n; "atoms,Iteration="; t; "Etot,Ep,Ek="; a; b; c] ->
  frame_energy_of_text F pfloat (row +++ String nl rest) = Err IndexError.
Proof. exact old_header_frame. Qed.
Print Assumptions C06_frame_energy_old_header_fails.

(** The two readers disagree on a frame whose kinetic energy has no comma: the
    single-frame reader sees 0.5E-1 instead of 0.5E-12.  Numbers are kept as
    text here ([pfloat := Ok]). *)
Definition ex_row : string := " 72 atoms,Iteration (fs) =   -0.1E+01, Etot,Ep,Ek (eV) =  -0.3E+05  -0.2E+05   0.5E-12".
Theorem C06_readers_agree_refuted :
  exists txt, bulk_energy_of_text string Ok txt = Ok ("-0.3E+05", "-0.2E+05", "0.5E-12") /\
              frame_energy_of_text string Ok txt = Ok ("-0.3E+05", "-0.2E+05", "0.5E-1").
Proof. exists (ex_row +++ String nl "Lattice vector"). split; vm_compute; reflexivity. Qed.
Print Assumptions C06_readers_agree_refuted.

Example C06_case :
  bulk_energy_of_text string Ok (ex_row +++ ", SCF = 16" +++ String nl "") = Ok ("-0.3E+05", "-0.2E+05", "0.5E-12") /\
  frame_energy_of_text string Ok (ex_row +++ ", SCF = 16" +++ String nl "") = Ok ("-0.3E+05", "-0.2E+05", "0.5E-12").
Proof. split; vm_compute; reflexivity. Qed.

(** A row that meets the hypotheses of the header theorems. *)
Example C06_words_case :
  words " 72 atoms,Iteration (fs) = t Etot,Ep,Ek (eV) = a b c, SCF"
    (["72"; "atoms,Iteration"; "(fs)"; "="; "t"; "Etot,Ep,Ek"; "(eV)"; "="; "a"; "b"; "c,"] ++ ["SCF"]).
Proof.
  Local Ltac chars := intros a c b H; repeat (destruct a as [|? a]; cbn in H; [injection H as <- _; cbn; first [solve [auto 12]|intros K; repeat (destruct K as [K|K]; [discriminate K|]); destruct K]|injection H as _ H]); destruct a; discriminate.
  Local Ltac sp := cbn; auto 12.
  Local Ltac word w r := refine (words_cons "" w " " r _ _ _ _ _); [chars|split; [discriminate|chars]|sp|].
  refine (words_cons " " "72" " " "atoms,Iteration (fs) = t Etot,Ep,Ek (eV) = a b c, SCF" _ _ _ _ _); [chars|split; [discriminate|chars]|sp|].
  word "atoms,Iteration" "(fs) = t Etot,Ep,Ek (eV) = a b c, SCF".
  word "(fs)" "= t Etot,Ep,Ek (eV) = a b c, SCF".
  word "=" "t Etot,Ep,Ek (eV) = a b c, SCF".
  word "t" "Etot,Ep,Ek (eV) = a b c, SCF".
  word "Etot,Ep,Ek" "(eV) = a b c, SCF".
  word "(eV)" "= a b c, SCF".
  word "=" "a b c, SCF". word "a" "b c, SCF". word "b" "c, SCF". word "c," "SCF".
  refine (words_one "" "SCF" _ _); [chars|split; [discriminate|chars]].
Qed.

(** C07.  Whatever structure builder is plugged in (the one in the code always
    raises, C05): when the bulk reader returns, structures and energies are one
    per frame and belong to their frame, while the virial list holds only the
    tensors of the frames that have one, in order; [vs] is what the single-frame
    accessor reads, frame by frame ([None] = three-column lattice rows). *)
Theorem C07_bulk_reader : forall F pfloat fzero S0 fs chk file m out,
  mv_open file = Ok m ->
  get_all_frame_structures_info F pfloat S0 fs chk m = Ok out ->
  List.length (b_structures F S0 out) = num_frames m /\
  List.length (b_energies F S0 out) = num_frames m /\
  (forall k txt, get_frame_str m k = Ok txt ->
     exists st en,
       nth_error (b_structures F S0 out) k = Some st /\ fs txt = Ok st /\
       nth_error (b_energies F S0 out) k = Some en /\ bulk_energy_of_text F pfloat txt = Ok en) /\
  exists vs, List.length vs = num_frames m /\ b_virials F S0 out = somes vs /\
    forall k v, nth_error vs k = Some v ->
      get_frame_virial F pfloat fzero m k =
      Ok (match v with Some t => t | None => repeat (repeat fzero 3) 3 end).
Proof. exact bulk_reader. Qed.
Print Assumptions C07_bulk_reader.

(** ... and every frame begins with a number of atoms. *)
Theorem C07_bulk_counts : forall (F : Type) (pfloat : string -> result F) (S0 : Type) (fs : string -> result S0) (chk : string -> result unit) file m out k txt,
  mv_open file = Ok m -> get_all_frame_structures_info F pfloat S0 fs chk m = Ok out -> get_frame_str m k = Ok txt ->
  exists row more w ws, split_on nl txt = row :: more /\ split_ws row = w :: ws /\ chk w = Ok tt.
Proof. exact bulk_counts. Qed.
Print Assumptions C07_bulk_counts.

(** What the single-frame accessor reads, in terms of the text of the frame. *)
Theorem C07_frame_virial_text : forall (F : Type) (pfloat : string -> result F) (fzero : F) m k txt v, get_frame_str m k = Ok txt ->
  (get_frame_virial F pfloat fzero m k = Ok v <->
   exists o, ExtractorSpec.stress_of pfloat (split_on nl txt) o /\ v = match o with Some t => t | None => repeat (repeat fzero 3) 3 end).
Proof. exact ExtractorLabels.frame_virial_text. Qed.
Print Assumptions C07_frame_virial_text.

(** Rows with unequally many numbers raise. *)
Theorem C07_uneven_rows_raise : forall (F : Type) (pfloat : string -> result F) (fzero : F) m k txt pre head a b c post x y z, get_frame_str m k = Ok txt ->
  split_on nl txt = pre ++ head :: a :: b :: c :: post -> ExtractorSpec.heads "LATTICE VECTOR" head -> Forall (fun l => ~ ExtractorSpec.heads "LATTICE VECTOR" l) pre ->
  length (split_ws a) <> 3 -> ExtractorSpec.last_numbers pfloat a x -> ExtractorSpec.last_numbers pfloat b y -> ExtractorSpec.last_numbers pfloat c z ->
  (length x <> length y \/ length y <> length z) ->
  get_frame_virial F pfloat fzero m k = Err ValueError.
Proof. exact ExtractorLabels.uneven_rows. Qed.
Print Assumptions C07_uneven_rows_raise.

Example C07_uneven_case : exists m, mv_open ("Lattice vector" +++ String nl "1 0 0 stress 7 8 9" +++ String nl "2" +++ String nl "0 1" +++ String nl (dash_run 38) +++ String nl "") = Ok m /\
  get_frame_virial string Ok "0" m 0 = Err ValueError.
Proof. eexists. split; [vm_compute; reflexivity|]. vm_compute. reflexivity. Qed.

(** So the virial list has one entry per frame only if every frame has one. *)
Theorem C07_virials_complete_iff : forall (A : Type) (vs : list (option A)),
  List.length (somes vs) = List.length vs <-> Forall (fun v => v <> None) vs.
Proof. exact @somes_all. Qed.
Print Assumptions C07_virials_complete_iff.

(** Entry k of the list comes from frame [positions 0 vs !! k] ... *)
Theorem C07_virial_origin : forall (A : Type) (vs : list (option A)) k t,
  nth_error (somes vs) k = Some t ->
  exists j, nth_error (positions 0 vs) k = Some j /\ nth_error vs j = Some (Some t).
Proof. exact (fun A vs => @somes_positions A vs 0). Qed.
Print Assumptions C07_virial_origin.

(** ... which is frame k for every k iff no frame without stress precedes a
    frame with stress. *)
Theorem C07_aligned_iff_prefix : forall (A : Type) (vs : list (option A)),
  (forall k p, nth_error (positions 0 vs) k = Some p -> p = k) <->
  (forall a b t, a < b -> nth_error vs a = Some None -> nth_error vs b <> Some (Some t)).
Proof. exact (fun A vs => @positions_prefix A vs 0). Qed.
Print Assumptions C07_aligned_iff_prefix.

(** Frame 0 has no stress, frame 1 has: the first bulk virial is frame 1's. *)
Definition ex_frame (row : string) : string :=
  "1 atoms,Iteration (fs) = 0, Etot,Ep,Ek (eV) = 1 2 3, SCF" +++ String nl "Lattice vector"
  +++ String nl row +++ String nl row +++ String nl row +++ String nl (dash_run 38) +++ String nl "".
Theorem C07_virials_aligned_refuted :
  exists file m out,
    mv_open file = Ok m /\ num_frames m = 2 /\
    get_all_frame_structures_info string Ok unit (fun _ => Ok tt) (fun _ => Ok tt) m = Ok out /\
    nth_error (b_virials string unit out) 0 = Some [["7"; "8"; "9"]; ["7"; "8"; "9"]; ["7"; "8"; "9"]] /\
    get_frame_virial string Ok "0" m 0 = Ok [["0"; "0"; "0"]; ["0"; "0"; "0"]; ["0"; "0"; "0"]] /\
    get_frame_virial string Ok "0" m 1 = Ok [["7"; "8"; "9"]; ["7"; "8"; "9"]; ["7"; "8"; "9"]].
Proof.
  exists (ex_frame "1 0 0" +++ ex_frame "1 0 0 stress 7 8 9").
  do 2 eexists. split; [vm_compute; reflexivity|]. split; [vm_compute; reflexivity|].
  split; [vm_compute; reflexivity|]. repeat split; vm_compute; reflexivity.
Qed.
Print Assumptions C07_virials_aligned_refuted.
