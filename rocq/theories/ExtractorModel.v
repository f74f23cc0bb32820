(** Model of the frame extractor: matersdk/io/pwmat/utils/acextractor.py
    ([ACstrExtractor]) and matersdk/io/pwmat/utils/mvextractor.py
    ([MVExtractor]).  Arrays of numbers are lists over an arbitrary number type;
    [np.array] of rows of different lengths raises ValueError (numpy >= 1.24). *)
From Verif Require Import Text MovementModel.

Section Extractor.
Variable F : Type.
(** [float(token)] and [int(token)], the latter into the same number type. *)
Variable pfloat pint : string -> result F.
Variable fzero : F.

(** acextractor.py:235-249: the extractor object. *)
Record acstr := { ac_lines : list string; ac_num_atoms : nat }.
Definition acstr_open (txt : string) : result acstr :=
  match search_num_atoms txt with
  | None => Err AttributeError
  | Some d => Ok {| ac_lines := split_on nl txt; ac_num_atoms := N.to_nat (digits_to_N d) |}
  end.

(** [ListLocator.locate_all_lines(strs_lst, content)[0]] *)
Definition locate_first (content : string) (lines : list string) : result nat :=
  get (locate_list content lines) 0.

(** [np.array(rows)] for a list of rows. *)
Definition same_lengths {A} (rows : list (list A)) : bool :=
  match rows with
  | [] => true
  | r :: rs => forallb (fun x => length x =? length r) rs
  end.
Definition np_array {A} (rows : list (list A)) : result (list (list A)) :=
  if same_lengths rows then Ok rows else Err ValueError.
(** [np.array(rows).reshape(-1)] *)
Definition flat_array {A} (rows : list (list A)) : result (list A) :=
  bind (np_array rows) (fun r => Ok (concat r)).

(** acextractor.py:252-277 *)
Definition get_basis_vectors (e : acstr) : result (list F) :=
  bind (locate_first "LATTICE" (ac_lines e)) (fun i =>
  bind (mapM (fun j => bind (get (ac_lines e) j) (fun row =>
                       mapM pfloat (firstn 3 (split_ws row)))) [i + 1; i + 2; i + 3]) (fun rows =>
  Ok (concat rows))).

(** [strs_lst[aim_idx+1 : aim_idx+num_atoms+1]] *)
Definition block_after (e : acstr) (i : nat) : list string :=
  slice (i + 1) (i + ac_num_atoms e + 1) (ac_lines e).

(** acextractor.py:280-298 *)
Definition get_types (e : acstr) : result (list F) :=
  bind (locate_first "POSITION" (ac_lines e)) (fun i =>
  mapM (fun row => bind (get (split_ws row) 0) pint) (block_after e i)).

(** acextractor.py:301-319 *)
Definition get_coords (e : acstr) : result (list F) :=
  bind (locate_first "POSITION" (ac_lines e)) (fun i =>
  bind (mapM (fun row => mapM pfloat (slice 1 4 (split_ws row))) (block_after e i)) flat_array).

(** [list + int] in Python. *)
Definition list_plus_int (l : list nat) (n : nat) : result nat := Err TypeError.

(** acextractor.py:322-338: [aim_idx] is the whole list of positions here. *)
Definition get_magmoms (e : acstr) : result (list F) :=
  try_except
    (let aim_idx := locate_list "MAGNETIC" (ac_lines e) in
     bind (list_plus_int aim_idx 1) (fun a =>
     bind (list_plus_int aim_idx (ac_num_atoms e)) (fun b =>
     mapM (fun row => match rev (split_ws row) with
                      | [] => Err IndexError
                      | t :: _ => pfloat t
                      end) (slice a (b + 1) (ac_lines e)))))
    (Err AttributeError).

(** acextractor.py:341-348 *)
Definition get_etot (e : acstr) : result (list F) :=
  bind (get (ac_lines e) 0) (fun row =>
  let pieces := split_on ","%char row in
  bind (locate_first "EK (EV) =" pieces) (fun i =>
  bind (get pieces i) (fun piece =>
  bind (get (split_ws piece) 3) (fun t =>
  bind (pfloat t) (fun x => Ok [x]))))).

(** acextractor.py:351-371 *)
Definition get_eatoms (e : acstr) : result (list F) :=
  try_except
    (bind (locate_first "ATOMIC-ENERGY, " (ac_lines e)) (fun i =>
     mapM (fun row => bind (get (split_ws row) 1) pfloat) (block_after e i)))
    (Err AttributeError).

(** acextractor.py:374-392 *)
Definition get_fatoms (e : acstr) : result (list F) :=
  try_except
    (bind (locate_first "FORCE" (ac_lines e)) (fun i =>
     bind (mapM (fun row => mapM pfloat (slice 1 4 (split_ws row))) (block_after e i)) flat_array))
    (Ok (repeat fzero (ac_num_atoms e * 3))).

(** acextractor.py:395-427; the first loop only checks, the second one reads. *)
Definition virial_row_check (e : acstr) (j : nat) : result unit :=
  bind (get (ac_lines e) j) (fun row =>
  match locate_list "STRESS" (split_ws row) with
  | [] => Err AttributeError
  | _ => Ok tt
  end).
Definition virial_row_read (e : acstr) (j : nat) : result (list F) :=
  bind (get (ac_lines e) j) (fun row =>
  let ts := last_n 3 (split_ws row) in
  mapM (fun k => bind (get ts k) pfloat) [0; 1; 2]).
Definition get_virial (e : acstr) : result (list F) :=
  bind (locate_first "LATTICE" (ac_lines e)) (fun i =>
  bind (mapM (virial_row_check e) [i + 1; i + 2; i + 3]) (fun _ =>
  bind (mapM (virial_row_read e) [i + 1; i + 2; i + 3]) (fun rows =>
  Ok (concat rows)))).

(** mvextractor.py:174-197: a mark is cleared by AttributeError only; any other
    exception leaves the constructor. *)
Definition mark_of {A} (r : result A) : result bool :=
  match r with
  | Ok _ => Ok true
  | Err AttributeError => Ok false
  | Err e => Err e
  end.

(** mvextractor.py:10-17 *)
Record mve := { me_mv : mv; virial_mark : bool; eatoms_mark : bool; magmoms_mark : bool }.
Definition mve_open (file : string) : result mve :=
  bind (mv_open file) (fun m =>
  bind (get_frame_str m 0) (fun txt =>
  bind (acstr_open txt) (fun e =>
  bind (mark_of (get_virial e)) (fun v =>
  bind (mark_of (get_eatoms e)) (fun ea =>
  bind (mark_of (get_magmoms e)) (fun mm =>
  Ok {| me_mv := m; virial_mark := v; eatoms_mark := ea; magmoms_mark := mm |})))))).

(** [if mark: l.append(x())] *)
Definition opt_field {A} (mark : bool) (r : result A) : result (list A) :=
  if mark then bind r (fun x => Ok [x]) else Ok [].

(** mvextractor.py:80-107 *)
Definition get_frame_info (x : mve) (fidx : nat) : result (list (list F)) :=
  bind (get_frame_str (me_mv x) fidx) (fun txt =>
  bind (acstr_open txt) (fun e =>
  bind (get_basis_vectors e) (fun box =>
  bind (get_types e) (fun types =>
  bind (get_coords e) (fun coords =>
  bind (get_etot e) (fun etot =>
  bind (get_fatoms e) (fun fatoms =>
  bind (opt_field (virial_mark x) (get_virial e)) (fun v =>
  bind (opt_field (magmoms_mark x) (get_magmoms e)) (fun mm =>
  bind (opt_field (eatoms_mark x) (get_eatoms e)) (fun ea =>
  Ok ([box; types; coords; etot; fatoms] ++ v ++ mm ++ ea))))))))))).

(** The lists that mvextractor.py:111-137 accumulates; an optional list that was
    never created stays [[]] and is not read. *)
Record columns := {
  c_box : list (list F); c_coord : list (list F); c_types : list (list F);
  c_energy : list (list F); c_force : list (list F);
  c_virial : list (list F); c_eatoms : list (list F); c_magmoms : list (list F) }.

Fixpoint frames_loop (x : mve) (chunks : list string) (c : columns) : result columns :=
  match chunks with
  | [] => Ok c
  | txt :: rest =>
      bind (acstr_open txt) (fun e =>
      bind (get_basis_vectors e) (fun box =>
      bind (get_coords e) (fun coord =>
      bind (get_types e) (fun types =>
      bind (get_etot e) (fun en =>
      bind (get_fatoms e) (fun force =>
      bind (opt_field (virial_mark x) (get_virial e)) (fun v =>
      bind (opt_field (eatoms_mark x) (get_eatoms e)) (fun ea =>
      bind (opt_field (magmoms_mark x) (get_magmoms e)) (fun mm =>
      frames_loop x rest
        {| c_box := c_box c ++ [box]; c_coord := c_coord c ++ [coord];
           c_types := c_types c ++ [types]; c_energy := c_energy c ++ [en];
           c_force := c_force c ++ [force]; c_virial := c_virial c ++ v;
           c_eatoms := c_eatoms c ++ ea; c_magmoms := c_magmoms c ++ mm |})))))))))
  end.

(** mvextractor.py:110-153: one entry per field, each one row per frame. *)
Definition get_frames_info (x : mve) : result (list (list (list F))) :=
  bind (frames_loop x (read_sequential (me_mv x))
          {| c_box := []; c_coord := []; c_types := []; c_energy := []; c_force := [];
             c_virial := []; c_eatoms := []; c_magmoms := [] |}) (fun c =>
  bind (mapM np_array [c_box c; c_types c; c_coord c; c_energy c; c_force c]) (fun base =>
  bind (opt_field (virial_mark x) (np_array (c_virial c))) (fun v =>
  bind (opt_field (eatoms_mark x) (np_array (c_eatoms c))) (fun ea =>
  bind (opt_field (magmoms_mark x) (np_array (c_magmoms c))) (fun mm =>
  Ok (base ++ v ++ ea ++ mm)))))).

(** mvextractor.py:156-171 (the misspelling is in the code). *)
Definition get_info_labels (x : mve) : list string :=
  ["box"; "types"; "coords"; "etot"; "fatoms"]
  ++ (if virial_mark x then ["virial"] else [])
  ++ (if eatoms_mark x then ["etaoms"] else [])
  ++ (if magmoms_mark x then ["magmoms"] else []).

End Extractor.
