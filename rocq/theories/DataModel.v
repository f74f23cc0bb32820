(** Model of the data-set writers and readers: matersdk/data/struct_collection.py,
    matersdk/data/infoset.py and matersdk/data/infosets.py.

    Numbers are an arbitrary type [F].  A numpy array is the list of its entries
    along the first axis, each flattened; the element type is not modelled.
    A directory is the list of its entries in order of creation. *)
From Coq Require Import String Ascii DecimalString.
From Verif Require Import Base ElementModel.

(** [str(n)] for a non-negative integer. *)
Definition dec (n : nat) : string := NilZero.string_of_uint (Nat.to_uint n).

Fixpoint zeros (k : nat) : string :=
  match k with 0 => EmptyString | S k' => String "0" (zeros k') end.

(** ["%03d" % n] and ["{0:0>3}".format(n)] for a non-negative integer. *)
Definition pad3 (n : nat) : string := (zeros (3 - String.length (dec n)) ++ dec n)%string.

(** [list(dict.fromkeys(l))] *)
Definition firsts (l : list Z) : list Z :=
  fold_left (fun acc x => if existsb (Z.eqb x) acc then acc else acc ++ [x]) l [].

(** Python slice [l[a:b]] with integers of either sign. *)
Definition clip (n : nat) (a : Z) : nat :=
  Z.to_nat (if (a <? 0)%Z then Z.max 0 (a + Z.of_nat n) else Z.min a (Z.of_nat n)).
Definition pyslice {A} (a b : Z) (l : list A) : list A :=
  slice (clip (length l) a) (clip (length l) b) l.

(** Python index [l[i]] with an integer of either sign. *)
Definition pyget {A} (l : list A) (i : Z) : result A :=
  if (i <? 0)%Z
  then (if (i + Z.of_nat (length l) <? 0)%Z then Err IndexError else get l (Z.to_nat (i + Z.of_nat (length l))))
  else get l (Z.to_nat i).

(** numpy on arrays of at least two dimensions; a row is flattened. *)
Section Numpy.
Context {F : Type}.

(** [np.array(list of rows)]: rows of different lengths raise ValueError. *)
Definition np_stack (l : list (list F)) : result (list (list F)) :=
  match l with
  | [] => Ok []
  | r :: rest => if forallb (fun x => length x =? length r) rest then Ok l else Err ValueError
  end.

(** [np.concatenate(arrays, axis=0)]: no arrays at all, or different row lengths,
    raise ValueError.  (An array without rows has no recorded row length here;
    none occurs, every data file has a frame.) *)
Definition np_concat (l : list (list (list F))) : result (list (list F)) :=
  match l with [] => Err ValueError | _ => np_stack (concat l) end.

Fixpoint chunks (w n : nat) (l : list F) : list (list F) :=
  match n with 0 => [] | S n' => firstn w l :: chunks w n' (skipn w l) end.

(** [a.reshape(n, -1)] of an array with the given entries. *)
Definition reshape (n : nat) (l : list F) : result (list (list F)) :=
  if (n =? 0) || negb (length l mod n =? 0) then Err ValueError
  else Ok (chunks (length l / n) n l).
End Numpy.

(** ** StructCollection *)
Section Collection.
Context {F : Type}.
(** [0.0] and [x != 0]. *)
Variable zero : F.
Variable nonzero : F -> bool.

(** What the collection uses of a DStructure: atomic numbers, lattice matrix
    flattened, Cartesian coordinates, forces and energies of the sites. *)
Record struct : Type := mkStruct {
  st_species : list Z; st_box : list F; st_coords : list (list F);
  st_forces : list (list F); st_energies : list F }.

Record coll : Type := mkColl {
  co_structs : list struct; co_total : list F; co_potential : list F; co_kinetic : list F;
  co_virial : list (list F); co_numbers : list Z; co_counts : list (Z * nat); co_atoms : nat }.

(** struct_collection.py:34-50, 103-143 *)
Definition make (structs : list struct) (tot pot kin : list F) (vir : list (list F)) : result coll :=
  bind (get structs 0) (fun s0 =>
  let numbers := firsts (st_species s0) in
  let counts := fold_left (fun d a => dset Z.eqb d a (length (filter (Z.eqb a) (st_species s0)))) numbers [] in
  Ok (mkColl structs tot pot kin vir numbers counts (length (st_species s0)))).

(** A directory entry: a text file, or a subdirectory with its arrays. *)
Inductive entry : Type :=
| Text (name content : string)
| SetDir (name : string) (files : list (string * list (list F))).

Definition entry_name (e : entry) : string :=
  match e with Text n _ => n | SetDir n _ => n end.

(** ["\n".join(...) + "\n"] *)
Definition newline : string := String (ascii_of_nat 10) EmptyString.
Definition lines (l : list string) : string := (String.concat newline l ++ newline)%string.

Record arrays : Type := mkArrays {
  ar_box : list (list F); ar_coord : list (list F); ar_force : list (list F);
  ar_total : list (list F); ar_virial : list (list F); ar_energy : list (list F) }.

(** struct_collection.py:238-255 *)
Definition build_arrays (c : coll) : result arrays :=
  let n := length (co_structs c) in
  bind (bind (np_stack (map st_box (co_structs c))) (fun a => reshape n (concat a))) (fun box =>
  bind (bind (np_stack (map (fun s => concat (st_coords s)) (co_structs c))) (fun a => reshape n (concat a))) (fun coord =>
  bind (bind (np_stack (map (fun s => concat (st_forces s)) (co_structs c))) (fun a => reshape n (concat a))) (fun force =>
  bind (reshape n (co_total c)) (fun tot =>
  bind (reshape n (concat (co_virial c))) (fun vir =>
  bind (np_stack (map st_energies (co_structs c))) (fun en =>
  Ok (mkArrays box coord force tot vir en))))))).

(** struct_collection.py:269-276: the arrays of one set. *)
Definition set_files (c : coll) (a : arrays) (i s : Z) : list (string * list (list F)) :=
  let part := pyslice (i * s) ((i + 1) * s) in
  [("cell.npy", part (ar_box a)); ("atom_coord.npy", part (ar_coord a));
   ("tot_energy.npy", part (ar_total a)); ("atom_force.npy", part (ar_force a))]%string
  ++ (if existsb nonzero (concat (co_virial c)) then [("virial.npy"%string, part (ar_virial a))] else [])
  ++ (if existsb nonzero (concat (ar_energy a)) then [("atom_energy.npy"%string, part (ar_energy a))] else []).

(** struct_collection.py:262-276; [os.makedirs] raises when the name is taken. *)
Fixpoint write_sets (c : coll) (a : arrays) (s : Z) (is : list nat) (dir : list entry) : list entry * result unit :=
  match is with
  | [] => (dir, Ok tt)
  | i :: r =>
      let name := ("set." ++ pad3 i)%string in
      if existsb (fun e => String.eqb (entry_name e) name) dir then (dir, Err FileExistsError)
      else write_sets c a s r (dir ++ [SetDir name (set_files c a (Z.of_nat i) s)])
  end.

(** struct_collection.py:220-222 *)
Definition type_index (c : coll) : list (Z * nat) :=
  fold_left (fun d p => dset Z.eqb d (snd p) (fst p)) (combine (seq 0 (length (co_numbers c))) (co_numbers c)) [].

(** struct_collection.py:180-276: the directory afterwards (also when an exception
    escapes) and the outcome.  [old] is the directory before, if it exists; it is
    deleted first. *)
Definition to (old : option (list entry)) (c : coll) (set_size : Z) : list entry * result unit :=
  let dir0 := match old with None => [] | Some _ => [] end in
  let dir1 := dir0 ++ [Text "type_map.raw" (lines (map (fun p => dec (snd p)) (type_index c)))] in
  match bind (get (co_structs c) 0) (fun s0 =>
        mapM (fun i => bind (get (st_species s0) i) (dget Z.eqb (type_index c))) (seq 0 (co_atoms c))) with
  | Err e => (dir1, Err e)
  | Ok types =>
      let dir2 := dir1 ++ [Text "type.raw" (lines (map dec types))] in
      match build_arrays c with
      | Err e => (dir2, Err e)
      | Ok a =>
          let n := Z.of_nat (length (co_structs c)) in
          if (set_size =? 0)%Z then (dir2, Err ZeroDivisionError) else
          let k := (n / set_size)%Z in
          let k' := if (set_size * k <? n)%Z then (k + 1)%Z else k in
          write_sets c a set_size (seq 0 (Z.to_nat k')) dir2
      end
  end.

(** How [from_indices] can end: with a collection, with the error raised by its own
    guard, or with another exception. *)
Inductive selection : Type :=
| Selected (c : coll)
| Guarded
| Raised (e : exn).

(** struct_collection.py:279-314 *)
Definition from_indices (c : coll) (indices : list Z) : selection :=
  match indices with
  | [] => Raised ValueError
  | i0 :: rest =>
      if (Z.of_nat (length (co_structs c)) <? fold_left Z.max rest i0)%Z then Guarded else
      match bind (mapM (pyget (co_structs c)) indices) (fun ss =>
            bind (mapM (pyget (co_total c)) indices) (fun tot =>
            bind (mapM (pyget (co_potential c)) indices) (fun pot =>
            bind (mapM (pyget (co_kinetic c)) indices) (fun kin =>
            let vir := match mapM (pyget (co_virial c)) indices with
                       | Ok v => v
                       | Err _ => repeat [zero] 10
                       end in
            make ss tot pot kin vir)))) with
      | Ok c' => Selected c'
      | Err e => Raised e
      end
  end.

(** struct_collection.py:81-96 with a slice [a:b]; the arrays are sliced the same way. *)
Definition getitem (c : coll) (a b : Z) : result coll :=
  make (pyslice a b (co_structs c)) (pyslice a b (co_total c)) (pyslice a b (co_potential c))
       (pyslice a b (co_kinetic c)) (pyslice a b (co_virial c)).

End Collection.

(** ** InfoSet and InfoSets *)
Section Info.
Context {F : Type}.
(** An entry of the types array as an integer. *)
Variable an : F -> Z.

(** What the extractor delivers for one file: the three marks of
    [_find_extra_properties] and the arrays of [get_frames_info]
    (matersdk/io/pwmat/utils/mvextractor.py:110-153). *)
Record raw : Type := mkRaw {
  r_virial : bool; r_eatom : bool; r_magmom : bool; r_info : list (list (list F)) }.

(** infoset.py:12-55; [False] for absent optional data is [None]. *)
Record infoset : Type := mkInfo {
  is_box : list (list F); is_types : list (list nat); is_coord : list (list F);
  is_etot : list (list F); is_fatom : list (list F);
  is_dict : list (string * nat); is_formula : string; is_frames : nat;
  is_virial : option (list (list F)); is_eatom : option (list (list F)); is_magmom : option (list (list F)) }.

(** [np.unique]: the distinct entries in increasing order. *)
Fixpoint uinsert (x : Z) (l : list Z) : list Z :=
  match l with
  | [] => [x]
  | y :: r => if (x <? y)%Z then x :: l else if (x =? y)%Z then l else y :: uinsert x r
  end.
Definition unique (l : list Z) : list Z := fold_right uinsert [] l.

Definition count (a : Z) (l : list Z) : nat := length (filter (Z.eqb a) l).

(** [l.index(x)] *)
Fixpoint index_from (k : nat) (l : list Z) (x : Z) : result nat :=
  match l with
  | [] => Err ValueError
  | y :: r => if (x =? y)%Z then Ok k else index_from (S k) r x
  end.
Definition index (l : list Z) (x : Z) : result nat := index_from 0 l x.

Fixpoint foldM {A B} (f : B -> A -> result B) (l : list A) (b : B) : result B :=
  match l with [] => Ok b | x :: r => bind (f b x) (foldM f r) end.

Definition optional {A} (mark : bool) (x : result A) : result (option A) :=
  if mark then bind x (fun a => Ok (Some a)) else Ok None.

(** infoset.py:104-106 *)
Definition formula_of (d : list (string * nat)) : string :=
  fold_left (fun s p => (s ++ (fst p ++ dec (snd p)))%string) d EmptyString.

(** infoset.py:88-103: the dictionary of counts and the element order. *)
Definition own_dict (types : list (list Z)) : result (list (string * nat)) :=
  bind (get types 0) (fun t0 =>
  foldM (fun d t => bind (symbol_of t) (fun s => Ok (dset String.eqb d s (count t t0)))) (unique t0) []).

(** infoset.py:96-103 *)
Definition shared_dict (shared : list Z) (types : list (list Z)) : result (list (string * nat)) :=
  bind (foldM (fun d a => bind (symbol_of a) (fun s => Ok (dset String.eqb d s 0))) shared []) (fun d0 =>
  foldM (fun d a => bind (get types 0) (fun t0 =>
    foldM (fun d t => if (t =? a)%Z
                      then bind (symbol_of a) (fun s => bind (dget String.eqb d s) (fun v => Ok (dset String.eqb d s (v + 1))))
                      else Ok d) t0 d)) shared d0).

(** infoset.py:58-134, for the format it knows; any other format raises NameError. *)
Definition from_file (m : raw) (shared : option (list Z)) : result infoset :=
  bind (get (r_info m) 0) (fun box =>
  bind (get (r_info m) 1) (fun types0 =>
  bind (get (r_info m) 2) (fun coord =>
  bind (get (r_info m) 3) (fun etot =>
  bind (get (r_info m) 4) (fun fatom =>
  bind (optional (r_virial m) (get (r_info m) 5)) (fun virial =>
  bind (optional (r_eatom m) (get (r_info m) (if r_virial m then 6 else 5))) (fun eatom =>
  bind (optional (r_magmom m) (get (r_info m) (if r_virial m && r_eatom m then 7
                                               else if r_virial m || r_eatom m then 6 else 5))) (fun magmom =>
  let types := map (map an) types0 in
  let n := length box in
  bind (match shared with
        | None => bind (own_dict types) (fun d => bind (mapM (fun p => number_of (fst p)) d) (fun l => Ok (d, l)))
        | Some l => bind (shared_dict l types) (fun d => Ok (d, l))
        end) (fun dl =>
  bind (mapM (fun i => bind (get types i) (mapM (index (snd dl)))) (seq 0 n)) (fun new =>
  bind (np_stack new) (fun new =>
  Ok (mkInfo box new coord etot fatom (fst dl) (formula_of (fst dl)) n virial eatom magmom)))))))))))).

(** infosets.py:38-47 *)
Definition shared_numbers (sets : list infoset) : result (list Z) :=
  foldM (fun acc s => foldM (fun acc p => bind (number_of (fst p)) (fun a =>
           Ok (if existsb (Z.eqb a) acc then acc else acc ++ [a]))) (is_dict s) acc) sets [].

(** [Counter(l).items()] *)
Definition counter (l : list string) : list (string * nat) :=
  fold_left (fun d s => dset String.eqb d s (match dget String.eqb d s with Ok v => S v | Err _ => 1 end)) l [].

Definition all_some {A} (l : list (option A)) : option (list A) :=
  fold_right (fun o acc => match o, acc with Some a, Some l => Some (a :: l) | _, _ => None end) (Some []) l.

(** infosets.py:105-110: concatenated only if no set lacks the data. *)
Definition merge_optional (l : list (option (list (list F)))) : result (option (list (list F))) :=
  match all_some l with
  | None => Ok None
  | Some a => bind (np_concat a) (fun r => Ok (Some r))
  end.

(** infosets.py:68-111: all sets with one formula; the dictionary stored is that of
    [tmp_infoset] after the loop, the last set of the whole list. *)
Definition merge (all : list infoset) (f : string) : result infoset :=
  let sel := filter (fun s => String.eqb (is_formula s) f) all in
  bind (np_concat (map is_box sel)) (fun box =>
  bind (np_concat (map is_types sel)) (fun types =>
  bind (np_concat (map is_coord sel)) (fun coord =>
  bind (np_concat (map is_etot sel)) (fun etot =>
  bind (np_concat (map is_fatom sel)) (fun fatom =>
  let d := match rev all with s :: _ => is_dict s | [] => [] end in
  bind (merge_optional (map is_virial sel)) (fun virial =>
  bind (merge_optional (map is_eatom sel)) (fun eatom =>
  bind (merge_optional (map is_magmom sel)) (fun magmom =>
  Ok (mkInfo box types coord etot fatom d f (fold_left plus (map is_frames sel) 0) virial eatom magmom))))))))).

(** infosets.py:60-111 *)
Definition reduce_sets (sets : list infoset) : result (list infoset) :=
  foldM (fun acc p =>
    if (snd p =? 1) then Ok (acc ++ filter (fun s => String.eqb (is_formula s) (fst p)) sets)
    else bind (merge sets (fst p)) (fun s => Ok (acc ++ [s])))
    (counter (map is_formula sets)) [].

(** infosets.py:29-117; [files] are the contents of the files found, in the order of
    [os.walk]. *)
Definition from_dir (files : list raw) : result (list infoset) :=
  bind (mapM (fun m => from_file m None) files) (fun first =>
  bind (shared_numbers first) (fun shared =>
  bind (mapM (fun m => from_file m (Some shared)) files) reduce_sets)).

(** infosets.py:120-124 *)
Definition get_num_frames (sets : list infoset) : nat :=
  fold_left (fun n s => n + is_frames s) sets 0.

(** A part directory: name and arrays; the types array holds integers. *)
Inductive narray : Type := Nums (a : list (list F)) | Ints (a : list (list nat)).
Record formula_dir : Type := mkDir {
  fd_name : string; fd_types : string; fd_parts : list (string * list (string * narray)) }.

(** infoset.py:167-177 *)
Definition part_files (s : infoset) (a b : Z) : list (string * narray) :=
  [("box.npy", Nums (pyslice a b (is_box s))); ("types.npy", Ints (pyslice a b (is_types s)));
   ("coord.npy", Nums (pyslice a b (is_coord s))); ("etot.npy", Nums (pyslice a b (is_etot s)));
   ("fatom.npy", Nums (pyslice a b (is_fatom s)))]%string
  ++ (match is_virial s with Some v => [("virial.npy"%string, Nums (pyslice a b v))] | None => [] end)
  ++ (match is_eatom s with Some v => [("eatom.npy"%string, Nums (pyslice a b v))] | None => [] end)
  ++ (match is_magmom s with Some v => [("magmoms.npy"%string, Nums (pyslice a b v))] | None => [] end).

(** infoset.py:153-177; [os.mkdir] raises when the name is taken. *)
Fixpoint write_parts (s : infoset) (parts p : Z) (is : list nat) (done : list (string * list (string * narray)))
  : list (string * list (string * narray)) * result unit :=
  match is with
  | [] => (done, Ok tt)
  | i :: r =>
      let a := (Z.of_nat i * p)%Z in
      let b := if (Z.of_nat i =? parts - 1)%Z then Z.of_nat (is_frames s) else (a + p)%Z in
      if (b =? a)%Z then (done, Ok tt) else
      let name := ("part." ++ pad3 i)%string in
      if existsb (fun e => String.eqb (fst e) name) done then (done, Err FileExistsError)
      else write_parts s parts p r (done ++ [(name, part_files s a b)])
  end.

(** [f.write(e); f.write("\n")] for every element. *)
Definition type_map (d : list (string * nat)) : string :=
  fold_left (fun s p => (s ++ (fst p ++ newline))%string) d EmptyString.

(** infoset.py:137-177: [dir] holds the subdirectories already there.  The division
    [self.num_frames / part_size] is taken exactly. *)
Definition to_dir (dir : list formula_dir) (s : infoset) (part_size : option Z) : list formula_dir * result unit :=
  let n := Z.of_nat (is_frames s) in
  match (match part_size with
         | Some p => if (p =? 0)%Z then Err ZeroDivisionError else Ok (Z.quot n p + 1, p)%Z
         | None => Ok (1, n)%Z
         end) with
  | Err e => (dir, Err e)
  | Ok (parts, p) =>
      if existsb (fun d => String.eqb (fd_name d) (is_formula s)) dir then (dir, Err FileExistsError) else
      let '(ps, r) := write_parts s parts p (seq 0 (Z.to_nat parts)) [] in
      (dir ++ [mkDir (is_formula s) (type_map (is_dict s)) ps], r)
  end.

(** infosets.py:127-133 *)
Fixpoint all_to_dir (dir : list formula_dir) (sets : list infoset) (p : Z) : list formula_dir * result unit :=
  match sets with
  | [] => (dir, Ok tt)
  | s :: r => match to_dir dir s (Some p) with
              | (dir', Ok _) => all_to_dir dir' r p
              | (dir', Err e) => (dir', Err e)
              end
  end.
Definition sets_to_dir (dir : list formula_dir) (sets : list infoset) (part_size : option Z) : list formula_dir * result unit :=
  all_to_dir dir sets (match part_size with Some p => p | None => Z.of_nat (get_num_frames sets) end).

End Info.
