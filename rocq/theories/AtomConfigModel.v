(** Model of writing an atom.config file (matersdk/io/publicLayer/structure.py,
    [DStructure.to]) and of reading it back
    (matersdk/io/pwmat/utils/acextractor.py, [ACExtractor]). *)
From Verif Require Import Text MovementModel.

(** Decimal digits of a non-negative integer ([format(n, "d")]). *)
Definition digit_char (d : N) : ascii := ascii_of_nat (48 + N.to_nat d).
Fixpoint dec_go (fuel : nat) (n : N) (acc : string) : string :=
  match fuel with
  | O => String (digit_char n) acc
  | S f => if (n <? 10)%N then String (digit_char n) acc
           else dec_go f (n / 10)%N (String (digit_char (n mod 10)%N) acc)
  end.
Definition dec (n : N) : string := dec_go (N.to_nat (N.size n)) n "".

(** [int(token)] for a token of decimal digits; signs and underscores, which
    Python also accepts, do not occur in the files considered. *)
Fixpoint all_digits (s : string) : bool :=
  match s with "" => true | String c s' => is_digit c && all_digits s' end.
Definition parse_int (t : string) : result N :=
  if negb (String.eqb t "") && all_digits t then Ok (digits_to_N t) else Err ValueError.

(** Blank padding of [format] with a "<w" width. *)
Fixpoint blanks (n : nat) : string := match n with O => "" | S n' => String " " (blanks n') end.
Definition ljust (w : nat) (s : string) : string := s +++ blanks (w - String.length s).

Section AtomConfig.
Variable F : Type.
(** The texts produced by the "E", "f" and ".2f" presentation types, and
    [float(token)]. *)
Variables fmtE fmtf fmt2 : F -> string.
Variable pfloat : string -> result F.
Variable fzero : F.

(** A structure as seen by the writer: lattice rows, sites as (atomic number,
    fractional coordinates), magnetic moments.  Simplification: the look-up of
    the atomic number of a species (KeyError if unknown) is done already. *)
Record site := { st_z : N; st_x : F; st_y : F; st_w : F }.
Record cell := { lat : (F * F * F) * (F * F * F) * (F * F * F);
                 sites : list site; magmom : list F }.

Definition endl : string := String nl "".

(** structure.py:143-160, one lattice row. *)
Definition lattice_line (r : F * F * F) : string :=
  let '(a, b, c) := r in
  "   " +++ ljust 14 (fmtE a) +++ "    " +++ ljust 14 (fmtE b) +++ "    " +++ ljust 14 (fmtE c) +++ endl.
(** structure.py:166-173 *)
Definition site_line (s : site) : string :=
  "  " +++ ljust 2 (dec (st_z s)) +++ "         " +++ ljust 10 (fmtf (st_x s)) +++ "         "
  +++ ljust 10 (fmtf (st_y s)) +++ "         " +++ ljust 10 (fmtf (st_w s)) +++ "     1  1  1" +++ endl.
(** structure.py:178-183 *)
Definition magmom_line (s : site) (m : F) : string :=
  "  " +++ ljust 3 (dec (st_z s)) +++ " " +++ fmt2 m +++ endl.

(** The magnetic loop of structure.py:178: [site_properties["magmom"][i]] for
    every site index; a list that is too short raises IndexError. *)
Fixpoint magmom_lines (ss : list site) (ms : list F) : result (list string) :=
  match ss, ms with
  | [], _ => Ok []
  | s :: ss', m :: ms' => bind (magmom_lines ss' ms') (fun r => Ok (magmom_line s m :: r))
  | _ :: _, [] => Err IndexError
  end.

(** structure.py:133-183, format "pwmat": the text of the file. *)
Definition to_text (c : cell) (include_magnetic_moments : bool) : result string :=
  let '(r0, r1, r2) := lat c in
  bind (if include_magnetic_moments
        then bind (magmom_lines (sites c) (magmom c)) (fun r => Ok (("Magnetic" +++ endl) :: r))
        else Ok []) (fun tail =>
  Ok (concat_str
    ([ "  " +++ dec (N.of_nat (length (sites c))) +++ " atoms" +++ endl;
       "Lattice vector (Angstrom)" +++ endl;
       lattice_line r0; lattice_line r1; lattice_line r2;
       "Position (normalized), move_x, move_y, move_z" +++ endl ]
     ++ map site_line (sites c) ++ tail))).

(** [linecache.getline(path, i)]: the i-th (1-based) line of the lines that
    linecache holds for the path, the empty string when out of range.  linecache
    keeps the lines of the first read of a path and does not look at the file
    again, so they are a separate argument [lc]. *)
Definition getline (lc : list string) (i : nat) : string :=
  match i with O => "" | S k => nth k lc "" end.

(** acextractor.py:91-100 *)
Definition ac_get_num_atoms (lc : list string) : result N :=
  bind (get (split_ws (getline lc 1)) 0) parse_int.
(** acextractor.py:103-131 *)
Definition ac_get_basis (lc : list string) (file : string) : result (list F) :=
  bind (get (locate_lines "LATTICE" file) 0) (fun i =>
  bind (mapM (fun j => mapM pfloat (firstn 3 (split_ws (getline lc j)))) [i + 1; i + 2; i + 3]) (fun rows =>
  Ok (concat rows))).
(** acextractor.py:134-162 *)
Definition ac_get_types (n : N) (file : string) : result (list N) :=
  bind (get (locate_lines "POSITION" file) 0) (fun i =>
  mapM (fun row => bind (get (split_ws row) 0) parse_int) (slice i (i + N.to_nat n) (file_lines file))).
(** acextractor.py:165-195; [np.array(rows).reshape(-1)] on rows of unequal
    length raises ValueError. *)
Definition ac_get_coords (n : N) (file : string) : result (list F) :=
  bind (get (locate_lines "POSITION" file) 0) (fun i =>
  bind (mapM (fun row => mapM pfloat (slice 1 4 (split_ws row))) (slice i (i + N.to_nat n) (file_lines file)))
  (fun rows => match rows with
               | [] => Ok []
               | r :: rs => if forallb (fun x => length x =? length r) rs then Ok (concat rows) else Err ValueError
               end)).
(** acextractor.py:198-225: the last "MAGNETIC" line; any exception gives zeros. *)
Definition ac_get_magmoms (n : N) (file : string) : list F :=
  match
    match rev (locate_lines "MAGNETIC" file) with
    | [] => Err IndexError
    | i :: _ =>
        mapM (fun row => match rev (split_ws row) with
                         | [] => Err IndexError
                         | t :: _ => pfloat t
                         end) (slice i (i + N.to_nat n) (file_lines file))
    end
  with
  | Ok l => l
  | Err _ => repeat fzero (N.to_nat n)
  end.

(** acextractor.py:71-88: what construction of the extractor delivers. *)
Record extracted := { x_num : N; x_basis : list F; x_types : list N; x_coords : list F }.
Definition ac_open (lc : list string) (file : string) : result extracted :=
  bind (ac_get_num_atoms lc) (fun n =>
  bind (ac_get_basis lc file) (fun b =>
  bind (ac_get_types n file) (fun t =>
  bind (ac_get_coords n file) (fun c =>
  Ok {| x_num := n; x_basis := b; x_types := t; x_coords := c |})))).
End AtomConfig.
