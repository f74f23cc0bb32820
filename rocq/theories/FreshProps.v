(** Properties C105 and C106: reading PWmat files several times in a process, and the tables of an
    IN.KPT file.  [int_of], [pfloat] and [round3] are arbitrary. *)
From Coq Require Import ZArith Lia Sorted.
From Verif Require Import Text MovementModel AtomConfigModel FreshModel FreshSpec FreshProofs FreshCases.
Open Scope nat_scope.
Open Scope list_scope.

(** ** C105 *)

(** As long as a file does not change after the first question that was asked while it was there,
    every question is answered as a new process would answer it now. *)
Theorem C105_unchanged : forall F int_of pfloat round3 d a b q p,
  ~ looked_at d a p -> (forall e, In e b -> ~ changes p e) ->
  answer_after F int_of pfloat round3 (new_process d) (a ++ b) q p =
  snd (ask F int_of pfloat round3 q p (new_process (files_after d (a ++ b)))).
Proof. exact unchanged. Qed.
Print Assumptions C105_unchanged.

(** Positions, weights and names of an IN.KPT file are answered as a new process would answer them,
    whatever happened before. *)
Theorem C105_body : forall F int_of pfloat round3 d es q p, about_body q ->
  answer_after F int_of pfloat round3 (new_process d) es q p =
  snd (ask F int_of pfloat round3 q p (new_process (files_after d es))).
Proof. exact body_current. Qed.
Print Assumptions C105_body.

(** The Fermi energy and the first two lines of an IN.KPT file are not: after the first question
    that was asked while the file was there, the answer is that of the file at that time for ever,
    whatever is written to the file, and also when it is removed. *)
Theorem C105_header_refuted : forall F int_of pfloat round3 d a b p c q0 q,
  ~ looked_at d a p -> files_after d a p = Some c -> about_header q0 \/ q0 = AtomConfig -> about_header q ->
  answer_after F int_of pfloat round3 (new_process d) (a ++ Ask q0 p :: b) q p =
  snd (ask F int_of pfloat round3 q p (new_process (fun _ => Some c))).
Proof. exact header_stale. Qed.
Print Assumptions C105_header_refuted.

(** What a new process answers is what the file says: the number before the unit in the first line
    of OUT.FERMI, first and last number of the second line and first number of the first line of
    IN.KPT, the fourth column, the last word of the first line of REPORT with the heading. *)
Theorem C105_says : forall F int_of pfloat round3 d p c q x, d p = Some c -> says F int_of pfloat round3 c q x ->
  snd (ask F int_of pfloat round3 q p (new_process d)) = Ok x.
Proof. exact fresh_says. Qed.
Print Assumptions C105_says.

(** A file that is not there and was not asked about while it was: IndexError for the questions
    that go through the kept lines, FileNotFoundError (PlainException here) for the others. *)
Theorem C105_missing : forall F int_of pfloat round3 d es q p, ~ looked_at d es p -> files_after d es p = None ->
  answer_after F int_of pfloat round3 (new_process d) es q p =
    Err (match q with EFermi | KptObject | KptNum | AtomConfig => IndexError | _ => PlainException end).
Proof. exact missing. Qed.
Print Assumptions C105_missing.

(** A Fermi energy read again after the calculation was repeated is the old one; so is that of a
    file that was removed. *)
Theorem C105_fermi_refuted :
  exists a b q p, after_ (new_process empty_disk) (a ++ [Write p fermi_5]) q p = Ok (AFloat N 3%N) /\
    snd (ask_ q p (new_process (files_after empty_disk (a ++ [Write p fermi_5])))) = Ok (AFloat N 5%N) /\
    after_ (new_process empty_disk) (a ++ b) q p = Ok (AFloat N 3%N) /\
    files_after empty_disk (a ++ b) p = None.
Proof.
  exists [Write "F" fermi_3; Ask EFermi "F"], [Remove "F"], EFermi, "F"%string.
  repeat split; vm_compute; reflexivity.
Qed.
Print Assumptions C105_fermi_refuted.

(** One object of a rewritten IN.KPT file then gives two k-points and three positions. *)
Theorem C105_kpoints_refuted :
  exists es p rows, after_ (new_process empty_disk) es KptNum p = Ok (AInt N 2) /\
    after_ (new_process empty_disk) es KptFrac p = Ok (ARows N rows) /\ List.length rows = 3 /\
    snd (ask_ KptNum p (new_process (files_after empty_disk es))) = Ok (AInt N 3).
Proof.
  exists [Write "K" kpt_two; Ask KptObject "K"; Write "K" kpt_three], "K"%string, [[0; 0; 0]; [1; 0; 0]; [1; 1; 0]]%N.
  repeat split; vm_compute; reflexivity.
Qed.
Print Assumptions C105_kpoints_refuted.

(** For a REPORT file the answer can belong to neither file: the number of bands is the number of
    k-points of the old file. *)
Theorem C105_report_refuted :
  exists es p, after_ (new_process empty_disk) es RepBands p = Ok (AInt N 2) /\
    snd (ask_ RepBands p (new_process (fun _ => Some report_a))) = Ok (AInt N 4) /\
    snd (ask_ RepBands p (new_process (files_after empty_disk es))) = Ok (AInt N 8).
Proof.
  exists [Write "R" report_a; Ask RepKpts "R"; Write "R" report_b], "R"%string.
  repeat split; vm_compute; reflexivity.
Qed.
Print Assumptions C105_report_refuted.

(** The hypotheses are met: a file written, asked about while missing before, asked about twice with
    another file changing in between. *)
Example C105_case :
  let a := [Ask EFermi "F"; Write "F" fermi_3] in let b := [Ask EFermi "F"; Write "K" kpt_two; Ask KptNum "K"] in
  ~ looked_at empty_disk a "F" /\ (forall e, In e b -> ~ changes "F" e) /\
  after_ (new_process empty_disk) (a ++ b) EFermi "F" = Ok (AFloat N 3%N) /\
  after_ (new_process empty_disk) [] EFermi "F" = Err IndexError.
Proof.
  cbv zeta. split; [|split; [|split; vm_compute; reflexivity]].
  - intros (x & q & y & E & _ & Hf). destruct x as [|e0 [|e1 [|e2 x]]]; cbn in E.
    + apply Hf. reflexivity.
    + discriminate E.
    + discriminate E.
    + discriminate E.
  - intros e [<-|[<-|[<-|[]]]]; cbn; intros H0; try contradiction H0; discriminate H0.
Qed.

Example C105_says_case : says N int_z parse_int (fun x => x) report_b RepKpts (AInt N 3) /\
  says N int_z parse_int (fun x => x) kpt_two KptObject (AInts N 2 0).
Proof.
  split.
  - eapply says_kpts with (l := ("NUM_KPT = 3" +++ nl_)%string) (t := "3"%string); [|exists ["NUM_KPT"; "="]%string; reflexivity|reflexivity].
    exists (firstn 2 (file_lines report_b)), (skipn 3 (file_lines report_b)). repeat split; try reflexivity. repeat constructor.
  - eapply says_object with (b := "0"%string); [reflexivity|reflexivity|exists ["2"]%string; reflexivity|reflexivity|reflexivity].
Qed.

(** ** C106 *)

(** When the positions of an IN.KPT file can be read, the table of numbers and the table of named
    points can be read too; both list exactly the lines with a name, in the order of the file, with
    the same names; the position of a named point is the position at its number; and the weights,
    when they can be read, are as many as the positions, one for each line after the first two. *)
Theorem C106_tables : forall F int_of pfloat round3 w p rows,
  snd (ask F int_of pfloat round3 KptFrac p w) = Ok (ARows F rows) ->
  exists c index hsp, disk w p = Some c /\
    snd (ask F int_of pfloat round3 KptIndex p w) = Ok (AIndex F index) /\
    snd (ask F int_of pfloat round3 KptHsp p w) = Ok (AHsp F hsp) /\
    Forall2 (fun ix nm => snd ix = fst nm /\ nth_error rows (fst ix) = Some (snd nm)) index hsp /\
    StronglySorted lt (map fst index) /\
    (forall i name, In (i, name) index <-> named c i name) /\
    (forall i, i < List.length rows <-> exists l, body_line c i l) /\
    (forall ws, snd (ask F int_of pfloat round3 KptWeights p w) = Ok (AFloats F ws) -> List.length ws = List.length rows).
Proof. exact tables_agree. Qed.
Print Assumptions C106_tables.

(** The number in the first line is not compared with the lines. *)
Theorem C106_number_refuted :
  exists c rows, snd (ask_ KptNum "K" (new_process (fun _ => Some c))) = Ok (AInt N 7) /\
    snd (ask_ KptFrac "K" (new_process (fun _ => Some c))) = Ok (ARows N rows) /\ List.length rows = 2.
Proof. exists kpt_wrong, [[0; 0; 0]; [1; 0; 0]]%N. repeat split; vm_compute; reflexivity. Qed.
Print Assumptions C106_number_refuted.

(** An empty line at the end of the file makes positions and weights unreadable, and the named
    points are still read. *)
Theorem C106_blank_refuted :
  snd (ask_ KptFrac "K" (new_process (fun _ => Some kpt_blank))) = Err ValueError /\
  snd (ask_ KptWeights "K" (new_process (fun _ => Some kpt_blank))) = Err IndexError /\
  snd (ask_ KptHsp "K" (new_process (fun _ => Some kpt_blank))) = snd (ask_ KptHsp "K" (new_process (fun _ => Some kpt_two))).
Proof. repeat split; vm_compute; reflexivity. Qed.
Print Assumptions C106_blank_refuted.

Example C106_case :
  snd (ask_ KptFrac "K" (new_process (fun _ => Some kpt_three))) = Ok (ARows N [[0; 0; 0]; [1; 0; 0]; [1; 1; 0]]%N) /\
  snd (ask_ KptIndex "K" (new_process (fun _ => Some kpt_three))) = Ok (AIndex N [(0, "G"); (2, "K")]%string) /\
  snd (ask_ KptHsp "K" (new_process (fun _ => Some kpt_three))) = Ok (AHsp N [("G", [0; 0; 0]%N); ("K", [1; 1; 0]%N)]%string) /\
  snd (ask_ KptWeights "K" (new_process (fun _ => Some kpt_three))) = Ok (AFloats N [1; 1; 1]%N).
Proof. repeat split; vm_compute; reflexivity. Qed.
