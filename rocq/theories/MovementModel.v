(** Trajectory (MOVEMENT) files: cutting into frames and the per-frame readers
    of class [Movement].

    Sources
    - /repo/matersdk/io/pwmat/utils/lineLocator.py   lines 10-72
    - /repo/matersdk/io/pwmat/utils/mvextractor.py   lines 11-77, 122-126
    - /repo/matersdk/io/pwmat/output/movement.py     lines 32-319
    - /repo/matersdk/io/publicLayer/structure.py     lines 67-100
    A file is its text (a string); opening it succeeds. *)
From Verif Require Import Text.

(** The 38 dashes of mvextractor.py:42 / movement.py:55. *)
Definition dashes : string := "--------------------------------------".

(** lineLocator.py:12-40 [LineLocator.locate_all_lines]: 1-based numbers of the
    lines whose upper-cased text contains [content]. *)
Fixpoint locate_lines_from (row_no : nat) (content : string) (lines : list string) : list nat :=
  match lines with
  | [] => []
  | l :: ls =>
      let row_no := S row_no in
      if contains content (upper l)
      then row_no :: locate_lines_from row_no content ls
      else locate_lines_from row_no content ls
  end.
Definition locate_lines (content : string) (file : string) : list nat :=
  locate_lines_from 0 content (file_lines file).

(** lineLocator.py:44-72 [ListLocator.locate_all_lines]: 0-based indices. *)
Fixpoint locate_list_from (str_no : nat) (content : string) (l : list string) : list nat :=
  match l with
  | [] => []
  | s :: ls =>
      if contains content (upper s)
      then str_no :: locate_list_from (S str_no) content ls
      else locate_list_from (S str_no) content ls
  end.
Definition locate_list (content : string) (l : list string) : list nat :=
  locate_list_from 0 content l.

(** movement.py:61-63 / mvextractor.py:49-51: first entry, then differences. *)
Fixpoint differences (prev : nat) (rows : list nat) : list nat :=
  match rows with
  | [] => []
  | r :: rs => r - prev :: differences r rs
  end.

(** movement.py:37-65 [get_chunksize] / mvextractor.py:24-52 [get_chunksizes]:
    [row_idxs[0]] raises IndexError when there is no separator. *)
Definition get_chunksizes (file : string) : result (list nat) :=
  match locate_lines dashes file with
  | [] => Err IndexError
  | r :: rs => Ok (r :: differences r rs)
  end.

(** [np.cumsum] *)
Fixpoint cumsum_from (acc : nat) (l : list nat) : list nat :=
  match l with
  | [] => []
  | x :: xs => (acc + x) :: cumsum_from (acc + x) xs
  end.

(** movement.py:68-84 / mvextractor.py:55-66: [cumsum([0] + sizes)]. *)
Definition get_chunkslices (sizes : list nat) : list nat := cumsum_from 0 (0 :: sizes).

(** Object state after the constructor (movement.py:32-34, mvextractor.py:11-15). *)
Record mv := { mv_file : string; mv_sizes : list nat; mv_slices : list nat }.

Definition mv_open (file : string) : result mv :=
  match get_chunksizes file with
  | Err e => Err e
  | Ok sizes => Ok {| mv_file := file; mv_sizes := sizes; mv_slices := get_chunkslices sizes |}
  end.

(** mvextractor.py:20-21, 47: number of separators found. *)
Definition num_frames (m : mv) : nat := length (mv_sizes m).

(** movement.py:106-112 / mvextractor.py:71-76: the enumerate loop with break. *)
Fixpoint frame_loop (idx_line : nat) (lines : list string) (a b : nat) (acc : string) : string :=
  match lines with
  | [] => acc
  | l :: ls =>
      if (a <=? idx_line) && (idx_line <? b)
      then frame_loop (S idx_line) ls a b (acc +++ l)
      else if b <=? idx_line then acc
      else frame_loop (S idx_line) ls a b acc
  end.

(** movement.py:87-114 [_get_frame_str] / mvextractor.py:69-77 [get_frame_str]
    for a non-negative index.  The slice look-ups happen inside the loop body,
    hence not at all for an empty file. *)
Definition get_frame_str (m : mv) (fidx : nat) : result string :=
  match file_lines (mv_file m) with
  | [] => Ok ""
  | lines =>
      bind (get (mv_slices m) fidx) (fun a =>
      bind (get (mv_slices m) (S fidx)) (fun b =>
      Ok (frame_loop 0 lines a b "")))
  end.

(** movement.py:126-129, 169-172 / mvextractor.py:123-126: reading [size] lines
    per chunk with [readline] (which returns the empty string at end of file). *)
Fixpoint read_chunks (sizes : list nat) (lines : list string) : list string :=
  match sizes with
  | [] => []
  | n :: ns => concat_str (firstn n lines) :: read_chunks ns (skipn n lines)
  end.
Definition read_sequential (m : mv) : list string :=
  read_chunks (mv_sizes m) (file_lines (mv_file m)).

Section Numbers.
(** [float(token)]: an arbitrary parser; number type arbitrary. *)
Variable F : Type.
Variable pfloat : string -> result F.
Variable fzero : F.
(** Result type of [DStructure.from_str] and the function itself. *)
Variable S : Type.
Variable from_str : string -> result S.

(** [str.split('\n')[0].split()] *)
Definition first_row_tokens (chunk : string) : result (list string) :=
  bind (get (split_on nl chunk) 0) (fun row => Ok (split_ws row)).

(** movement.py:248-279 [get_frame_energy] from the frame text: fixed columns
    8, 9 and column 10 without its last character.  [strip()] on a token of
    [split()] is the identity. *)
Definition frame_energy_of_text (frame_str : string) : result (F * F * F) :=
  bind (first_row_tokens frame_str) (fun row =>
  bind (get row 8) (fun t8 => bind (pfloat t8) (fun e_tot =>
  bind (get row 9) (fun t9 => bind (pfloat t9) (fun e_p =>
  bind (get row 10) (fun t10 => bind (pfloat (drop_last t10)) (fun e_k =>
  Ok (e_tot, e_p, e_k)))))))).

Definition get_frame_energy (m : mv) (fidx : nat) : result (F * F * F) :=
  bind (get_frame_str m fidx) frame_energy_of_text.

(** movement.py:180-192: the energies after the second token containing '='.
    Tokens of [split()] are never empty, so [energy_k[-1]] does not raise. *)
Definition bulk_energy_of_text (chunk : string) : result (F * F * F) :=
  bind (first_row_tokens chunk) (fun row =>
  bind (get (locate_list "=" row) 1) (fun i =>
  bind (get row (i + 1)) (fun ta => bind (pfloat ta) (fun e_tot =>
  bind (get row (i + 2)) (fun tb => bind (pfloat tb) (fun e_p =>
  bind (get row (i + 3)) (fun tc =>
  bind (pfloat (match last_char tc with
                | Some ","%char => drop_last tc
                | _ => tc
                end)) (fun e_k =>
  Ok (e_tot, e_p, e_k))))))))).

(** movement.py:207-210, 314-317: last three tokens of a row. *)
Definition last3_row (row : string) : result (list F) :=
  mapM pfloat (last_n 3 (split_ws row)).

(** movement.py:199-212: [None] when the first lattice row has exactly three
    tokens (nothing is appended), otherwise the appended tensor.  [vstack]
    raises ValueError on rows of different lengths. *)
Definition vstack3 (x y z : list F) : result (list (list F)) :=
  if (length x =? length y) && (length y =? length z) then Ok [x; y; z] else Err ValueError.

Definition bulk_virial_of_text (chunk : string) : result (option (list (list F))) :=
  let rows := split_on nl chunk in
  bind (get (locate_list "LATTICE VECTOR" rows) 0) (fun i =>
  bind (get rows (i + 1)) (fun rx =>
  if length (split_ws rx) =? 3 then Ok None
  else
    bind (last3_row rx) (fun x =>
    bind (get rows (i + 2)) (fun ry => bind (last3_row ry) (fun y =>
    bind (get rows (i + 3)) (fun rz => bind (last3_row rz) (fun z =>
    bind (vstack3 x y z) (fun v => Ok (Some v)))))))))  .

(** movement.py:282-319 [get_frame_virial]. *)
Definition frame_virial_of_text (frame_str : string) : result (list (list F)) :=
  let rows := split_on nl frame_str in
  bind (get (locate_list "LATTICE VECTOR" rows) 0) (fun i =>
  bind (get rows (i + 1)) (fun rx =>
  if length (split_ws rx) =? 3 then Ok (repeat (repeat fzero 3) 3)
  else
    bind (last3_row rx) (fun x =>
    bind (get rows (i + 2)) (fun ry => bind (last3_row ry) (fun y =>
    bind (get rows (i + 3)) (fun rz => bind (last3_row rz) (fun z =>
    vstack3 x y z))))))).

Definition get_frame_virial (m : mv) (fidx : nat) : result (list (list F)) :=
  bind (get_frame_str m fidx) frame_virial_of_text.

(** movement.py:140-220 [get_all_frame_structures_info]; [num_atoms] (line 200)
    is computed but unused, its possible ValueError is [check_int]. *)
Record bulk := { b_structures : list S; b_energies : list (F * F * F); b_virials : list (list (list F)) }.

Variable check_int : string -> result unit.

Definition num_atoms_check (chunk : string) : result unit :=
  bind (first_row_tokens chunk) (fun row => bind (get row 0) check_int).

Fixpoint bulk_loop (chunks : list string) (acc : bulk) : result bulk :=
  match chunks with
  | [] => Ok acc
  | c :: cs =>
      bind (from_str c) (fun st =>
      bind (bulk_energy_of_text c) (fun en =>
      bind (num_atoms_check c) (fun _ =>
      bind (bulk_virial_of_text c) (fun v =>
      bulk_loop cs
        {| b_structures := b_structures acc ++ [st];
           b_energies := b_energies acc ++ [en];
           b_virials := match v with
                        | Some t => b_virials acc ++ [t]
                        | None => b_virials acc
                        end |}))))
  end.

Definition get_all_frame_structures_info (m : mv) : result bulk :=
  bulk_loop (read_sequential m) {| b_structures := []; b_energies := []; b_virials := [] |}.

(** movement.py:117-137 [get_all_frame_structures]. *)
Definition get_all_frame_structures (m : mv) : result (list S) :=
  mapM from_str (read_sequential m).

(** movement.py:223-245 [get_frame_structure]. *)
Definition get_frame_structure (m : mv) (fidx : nat) : result S :=
  bind (get_frame_str m fidx) from_str.

End Numbers.

(** Attributes that an [ACstrExtractor] object carries after construction
    (acextractor.py:235-244; the assignments of the other attributes are
    commented out at lines 240-243), and [re.search(...)] returning None makes
    [.group] raise AttributeError (line 248). *)
Inductive attr_value : Type := AStr (s : string) | ALines (l : list string) | ANat (n : N).
Definition acstr_init (txt : string) : result (list (string * attr_value)) :=
  match search_num_atoms txt with
  | None => Err AttributeError
  | Some d => Ok [("atom_config_str", AStr txt); ("strs_lst", ALines (split_on nl txt));
                  ("num_atoms", ANat (digits_to_N d))]
  end.
Fixpoint getattr (obj : list (string * attr_value)) (name : string) : result attr_value :=
  match obj with
  | [] => Err AttributeError
  | (n, v) :: r => if String.eqb n name then Ok v else getattr r name
  end.

(** structure.py:67-100 [DStructure.from_str]: the three attributes are read in
    this order before a [Structure] is built by [mk]; any format but "pwmat"
    raises ValueError. *)
Definition from_str {S : Type} (mk : attr_value -> attr_value -> attr_value -> result S)
    (str_format str_content : string) : result S :=
  if String.eqb str_format "pwmat" then
    bind (acstr_init str_content) (fun o =>
    bind (getattr o "basis_vectors_array") (fun lattice =>
    bind (getattr o "species_array") (fun species =>
    bind (getattr o "coords_array") (fun coords =>
    mk lattice species coords))))
  else Err ValueError.
