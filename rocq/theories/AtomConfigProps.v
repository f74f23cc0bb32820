(** Property C08: an atom.config file read back after writing. *)
From Verif Require Import Text MovementModel AtomConfigModel AtomConfigSpec AtomConfigProofs ExtractorSpec AtomConfigRead.

(** C08.  Whatever number type, printers and parser: if printed numbers look
    like numbers and parse back to a rounded value, then a structure written to
    a path that was not read before in the process is read back with its number
    of atoms, its atomic numbers in order, and its lattice, coordinates and (if
    written) magnetic moments rounded; without a magnetic block the moments are
    read as zeros. *)
Theorem C08_round_trip :
  forall (F : Type) (fmtE fmtf fmt2 : F -> string) (pfloat : string -> result F) (fzero : F) (rE rf r2 : F -> F),
  (forall x, number_text (fmtE x) /\ pfloat (fmtE x) = Ok (rE x)) ->
  (forall x, number_text (fmtf x) /\ pfloat (fmtf x) = Ok (rf x)) ->
  (forall x, number_text (fmt2 x) /\ pfloat (fmt2 x) = Ok (r2 x)) ->
  forall c mag file,
  (mag = true -> length (magmom F c) = length (sites F c)) ->
  to_text F fmtE fmtf fmt2 c mag = Ok file ->
  exists x, ac_open F pfloat (file_lines file) file = Ok x /\
    x_num F x = N.of_nat (length (sites F c)) /\
    x_types F x = map (st_z F) (sites F c) /\
    x_basis F x = map rE (triple F (fst (fst (lat F c))) ++ triple F (snd (fst (lat F c))) ++ triple F (snd (lat F c))) /\
    x_coords F x = flat_map (fun s => [rf (st_x F s); rf (st_y F s); rf (st_w F s)]) (sites F c) /\
    ac_get_magmoms F pfloat fzero (x_num F x) file =
      (if mag then map r2 (magmom F c) else repeat fzero (length (sites F c))).
Proof. exact round_trip. Qed.
Print Assumptions C08_round_trip.

(** Case: integers as numbers, printed in decimal. *)
Definition ex_cell (zs : list N) : cell N :=
  {| lat := ((3, 0, 0), (0, 4, 0), (0, 0, 50000000000000000))%N;
     sites := map (fun z => {| st_z := z; st_x := z + 1; st_y := 7; st_w := 123456789012 |})%N zs;
     magmom := map (fun z => z * 2)%N zs |}.
Example C08_hyp : forall x, number_text (dec x) /\ parse_int (dec x) = Ok x.
Proof. intros x. split; [apply dec_number|apply parse_dec]. Qed.
Definition or_empty (r : result string) : string := match r with Ok s => s | Err _ => "" end.
Definition ex_text (zs : list N) : string := or_empty (to_text N dec dec dec (ex_cell zs) true).
Example C08_case :
  ac_open N parse_int (file_lines (ex_text [14; 8; 100]%N)) (ex_text [14; 8; 100]%N)
  = Ok {| x_num := 3; x_basis := [3; 0; 0; 0; 4; 0; 0; 0; 50000000000000000]; x_types := [14; 8; 100];
          x_coords := [15; 7; 123456789012; 9; 7; 123456789012; 101; 7; 123456789012] |}%N /\
  ac_get_magmoms N parse_int 0%N 3%N (ex_text [14; 8; 100]%N) = [28; 16; 200]%N.
Proof. split; vm_compute; reflexivity. Qed.

(** Any file with moment blocks: those of the last block are read, the last word of each row; if a
    row of it has no number at its end, all moments are read as zero. *)
Theorem C08_last_block :
  forall (F : Type) (pfloat : string -> result F) fzero n file pre h rows post, file_lines file = pre ++ h :: rows ++ post -> length rows = N.to_nat n ->
  heading "MAGNETIC" h -> Forall (fun l => ~ heading "MAGNETIC" l) (rows ++ post) ->
  (forall vs, Forall2 (fun row v => exists ts t, split_ws row = ts ++ [t] /\ pfloat t = Ok v) rows vs -> ac_get_magmoms F pfloat fzero n file = vs) /\
  ((exists row, In row rows /\ forall ts t v, split_ws row = ts ++ [t] -> pfloat t <> Ok v) -> ac_get_magmoms F pfloat fzero n file = repeat fzero (N.to_nat n)).
Proof. exact last_block. Qed.
Print Assumptions C08_last_block.

Definition two_blocks : string := "Magnetic
1 5
MAGNETIC
1 7
".
Example C08_last_block_case : map (fun l => split_ws l) (file_lines two_blocks) = [["Magnetic"]; ["1"; "5"]; ["MAGNETIC"]; ["1"; "7"]] /\ heading "MAGNETIC" "Magnetic" /\ ac_get_magmoms N parse_int 0%N 1%N two_blocks = [7]%N.
Proof. repeat split; vm_compute; reflexivity. Qed.

(** Any file whatever: it is read exactly when its first line begins with a numeral (the number of
    atoms), a line mentions the lattice and the three after the first such line begin with up to three
    numbers each, and a line mentions the position and the rows after the first such line, as many as
    there are atoms or as the file has, begin with a numeral and have equally many numbers after it,
    at most three of which are read; these are what is read. *)
Theorem C08_read : forall (F : Type) (p : string -> result F) file x, ac_open F p (file_lines file) file = Ok x <->
  begins_with (nth 0 (file_lines file) "") (x_num F x) /\
  (exists pre h post r0 r1 r2, file_lines file = pre ++ h :: post /\ heads "LATTICE" h /\ Forall (fun l => ~ heads "LATTICE" l) pre /\
   reads p (words 0 3 (nth 0 post "")) r0 /\ reads p (words 0 3 (nth 1 post "")) r1 /\ reads p (words 0 3 (nth 2 post "")) r2 /\ x_basis F x = r0 ++ r1 ++ r2) /\
  exists rows k xss, block_of "POSITION" (N.to_nat (x_num F x)) (file_lines file) rows /\ Forall2 begins_with rows (x_types F x) /\
  Forall2 (fun row xs => reads p (words 1 4 row) xs /\ length xs = k) rows xss /\ x_coords F x = concat xss.
Proof. exact open_iff. Qed.
Print Assumptions C08_read.

(** Case: fewer rows than atoms are announced, so that fewer atoms are read than the number says. *)
Definition short_file : string := "3 atoms
lattice
1 0 0 9
0 1
0 0 1
position
14 5 6 7 8
8 1 2 3
".
Example C08_read_case : ac_open N parse_int (file_lines short_file) short_file =
  Ok {| x_num := 3; x_basis := [1; 0; 0; 0; 1; 0; 0; 1]; x_types := [14; 8]; x_coords := [5; 6; 7; 1; 2; 3] |}%N.
Proof. vm_compute. reflexivity. Qed.

(** A blank first line is an IndexError, a first word that is no number a ValueError. *)
Theorem C08_first_line : forall (F : Type) (p : string -> result F) lc file,
  (split_ws (nth 0 lc "") = [] -> ac_open F p lc file = Err IndexError) /\
  (forall w ws, split_ws (nth 0 lc "") = w :: ws -> (forall n, ~ numeral w n) -> ac_open F p lc file = Err ValueError).
Proof. exact first_line. Qed.
Print Assumptions C08_first_line.
Example C08_first_line_case : split_ws " Lattice vector" = ["Lattice"; "vector"] /\ ac_open N parse_int [" Lattice vector"] "" = Err ValueError.
Proof. split; vm_compute; reflexivity. Qed.

(** Writing moments needs one for every site; too few of them raise. *)
Theorem C08_moments_needed : forall (F : Type) (fE ff f2 : F -> string) c,
  (length (magmom F c) < length (sites F c) -> to_text F fE ff f2 c true = Err IndexError) /\
  (length (sites F c) <= length (magmom F c) -> exists file, to_text F fE ff f2 c true = Ok file).
Proof. exact magmoms_short. Qed.
Print Assumptions C08_moments_needed.

Example C08_moments_case : to_text N dec dec dec {| lat := ((1, 0, 0), (0, 1, 0), (0, 0, 1))%N; sites := sites N (ex_cell [14; 8]%N); magmom := [1%N] |} true = Err IndexError.
Proof. reflexivity. Qed.

(** A path read earlier in the same process is read from a stale cache for the
    atom count and the lattice: a file rewritten from two to three atoms is read
    back as two atoms. *)
Theorem C08_reread_refuted :
  exists old new x,
    to_text N dec dec dec (ex_cell [14; 8]%N) true = Ok old /\
    to_text N dec dec dec (ex_cell [14; 8; 100]%N) true = Ok new /\
    ac_open N parse_int (file_lines old) new = Ok x /\ x_num N x = 2%N /\ x_types N x = [14; 8]%N.
Proof.
  exists (ex_text [14; 8]%N), (ex_text [14; 8; 100]%N). eexists.
  repeat split; vm_compute; reflexivity.
Qed.
Print Assumptions C08_reread_refuted.
