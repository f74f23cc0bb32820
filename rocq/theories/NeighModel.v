(** Model of matersdk/io/publicLayer/neigh.py and matersdk/feature/deepmd/premise.py.
    Two-dimensional numpy arrays are lists of rows.  Positions and distances are arbitrary types
    with a comparison; [np.argsort] is any function (its default algorithm is not stable, so
    nothing is known about the order of equal distances). *)
From Verif Require Import Arr Vec StructModel SiteIndexModel SeModel.
From Coq Require String.
Notation string := String.string.
Open Scope nat_scope.

(** [max] over a list, starting from 0. *)
Definition list_max0 (l : list nat) : nat := fold_left (fun m k => if m <? k then k else m) l 0.
(** [row[:k] = values] on a row of n zeros. *)
Definition write_prefix {A} (zero : A) (n k : nat) (values : list A) : result (list A) :=
  if length values =? Nat.min k n then Ok (values ++ repeat zero (n - k)) else Err ValueError.

Section Neigh.
Context {P D : Type}.
Variable dist : P -> P -> D.
Variable leb : D -> D -> bool.
Variable argsort : list D -> list nat.
Variables (zeroP : P) (zeroD : D).
Definition ltb (a b : D) : bool := negb (leb b a).

(** neigh.py:414-420 (and 37-43, 87-93) *)
Definition distances (coords : list P) (center : P) : list D := map (fun p => dist p center) coords.

Local Notation neigh_row := (list Z * list D * list P)%type.

(** neigh.py:406-433, the body of the loop: the row written for one centre and its count. *)
Definition key_row (supercell : list (Z * P)) (rcut : D) (center_idx : nat) : result (nat * neigh_row) :=
  let coords := map snd supercell in
  let n := length supercell in
  bind (get coords center_idx) (fun center =>
  let ds := distances coords center in
  let k := length (filter (fun d => leb d rcut) ds) in
  let idxs := firstn k (argsort ds) in
  bind (mapM (get (map fst supercell)) idxs) (fun zs =>
  bind (write_prefix 0%Z n k zs) (fun row_an =>
  bind (mapM (get ds) idxs) (fun dd =>
  bind (write_prefix zeroD n k dd) (fun row_d =>
  bind (mapM (get coords) idxs) (fun cc =>
  bind (write_prefix zeroP n k cc) (fun row_c =>
  Ok (k, (row_an, row_d, row_c))))))))).

(** neigh.py:350-440.  The three returned tables have one row per centre; they are kept
    together row by row.  Iteration i of the loop writes row i only. *)
Definition key_neighs_info (supercell : list (Z * P)) (key_idxs : list nat) (rcut : D) : result (list neigh_row) :=
  bind (mapM (key_row supercell rcut) key_idxs) (fun rows =>
  let w := list_max0 (map fst rows) in
  Ok (map (fun r => let '(an, d, c) := snd r in (firstn w an, firstn w d, firstn w c)) rows)).

(** neigh.py:34-55: [supercell] and [key_idxs] from steps 0 and 1. *)
Definition count_within (supercell : list (Z * P)) (rcut : D) (center_idx : nat) : result nat :=
  let coords := map snd supercell in
  bind (get coords center_idx) (fun center =>
  Ok (length (filter (fun d => ltb d rcut) (distances coords center)))).
Definition max_num_nbrs_real (supercell : list (Z * P)) (key_idxs : list nat) (rcut : D) : result Z :=
  bind (mapM (count_within supercell rcut) key_idxs) (fun counts => Ok (Z.of_nat (list_max0 counts) - 1)%Z).

(** neigh.py:99-104: atoms of the element, strictly within the cutoff, without the centre. *)
Definition count_element (supercell : list (Z * P)) (rcut : D) (z : Z) (center_idx : nat) : result nat :=
  let coords := map snd supercell in
  bind (get coords center_idx) (fun center =>
  Ok (length (filter (fun e : nat * (Z * P) => (fst (snd e) =? z)%Z && ltb (dist (snd (snd e)) center) rcut && negb (fst e =? center_idx))
                     (enumerate supercell)))).

(** Dictionaries with string keys. *)
Definition dict : Type := list (string * nat).
Fixpoint lookup (d : dict) (k : string) : result nat :=
  match d with [] => Err KeyError | (k', v) :: r => if String.eqb k k' then Ok v else lookup r k end.
Fixpoint update (d : dict) (k : string) (v : nat) : dict :=
  match d with [] => [(k, v)] | (k', v') :: r => if String.eqb k k' then (k', v) :: r else (k', v') :: update r k v end.
(** [dict.fromkeys(keys, 0)] *)
Definition fromkeys (keys : list string) : dict := fold_left (fun d k => update d k 0) keys [].

(** neigh.py:84-108; [specie2an] is the table specie2atomic_number. *)
Definition max_num_nbrs_real_element (specie2an : string -> result Z) (supercell : list (Z * P)) (key_idxs : list nat)
    (rcut : D) (nbr_elements : list string) : result dict :=
  foldM (fun d c => foldM (fun d e =>
    bind (specie2an e) (fun z => bind (count_element supercell rcut z c) (fun k =>
    bind (lookup d e) (fun old => Ok (if old <? k then update d e k else d))))) nbr_elements d) key_idxs (fromkeys nbr_elements).

(** Masks, neigh.py:143-166 and premise.py:79-113.  Row 0 of the table decides whether the row
    belongs to a centre of the element; column 0 is masked out. *)
Definition row_mask (center nbr : Z) (an : list Z) : result (bool * list bool) :=
  bind (get an 0) (fun z0 =>
  let c := (z0 =? center)%Z in
  Ok (c, match an with [] => [] | _ :: r => false :: map (fun z => c && (z =? nbr)%Z) r end)).
Definition count_mask (m : list bool) : nat := length (filter (fun b => b) m).
(** [row[mask]]; numpy raises IndexError when the lengths differ. *)
Fixpoint select {A} (m : list bool) (l : list A) : list A :=
  match m, l with b :: m', x :: l' => if b then x :: select m' l' else select m' l' | _, _ => [] end.
Definition masked {A} (m : list bool) (l : list A) : result (list A) :=
  if length m =? length l then Ok (select m l) else Err IndexError.

(** A table without rows has no column 0 (its width is 0 as well), IndexError. *)
Definition masks (center nbr : Z) (ans : list (list Z)) : result (list (bool * list bool)) :=
  match ans with [] => Err IndexError | _ => mapM (row_mask center nbr) ans end.

(** neigh.py:112-210; [site_index] is [structure.get_site_index].  [max_num_nbrs] is falsy for
    [False] and 0. *)
Definition _get_nbrs_indices (site_index : P -> nat) (table : list neigh_row) (center nbr : Z) (max_num_nbrs : option nat) : result (list (list nat)) :=
  bind (masks center nbr (map (fun r => fst (fst r)) table)) (fun ms =>
  let real := list_max0 (map (fun m => count_mask (snd m)) ms) in
  bind (mapM (fun mr : (bool * list bool) * neigh_row => let '((_, m), (_, _, c)) := mr in
          bind (masked m c) (fun sel => Ok (sel ++ repeat zeroP (real - length sel))))
        (filter (fun mr : (bool * list bool) * neigh_row => fst (fst mr)) (combine ms table))) (fun rows =>
  let neigh_list := map (map site_index) rows in
  match max_num_nbrs with
  | None | Some 0 => Ok neigh_list
  | Some w => mapM (fun r => write_prefix 0 w real r) neigh_list
  end)).

(** neigh.py:213-255.  [np.concatenate] needs at least one array, along axis 1 two-dimensional
    ones of equal height: an unpadded list without rows is one-dimensional; along axis 0 equal
    widths. *)
Fixpoint zip_app {A} (a b : list (list A)) : list (list A) :=
  match a, b with x :: a', y :: b' => (x ++ y) :: zip_app a' b' | _, _ => [] end.
Definition two_dim {A} (w : nat) (l : list (list A)) : bool := match l with [] => negb (w =? 0) | _ => true end.
Definition concat1 (parts : list (nat * list (list nat))) : result (list (list nat)) :=
  match parts with
  | [] => Err ValueError
  | (w, p) :: r =>
      if forallb (fun wp => two_dim (fst wp) (snd wp)) parts && forallb (fun wp => length (snd wp) =? length p) r
      then Ok (fold_left zip_app (map snd r) p) else Err ValueError
  end.
Definition widths_agree (parts : list (list (list nat))) : bool :=
  match concat parts with [] => true | r :: rest => forallb (fun x => length x =? length r) rest end.
Definition get_nbrs_indices (site_index : P -> nat) (table : list neigh_row) (centers nbrs : list Z) (max_num_nbrs : option (list nat)) : result (list (list nat)) :=
  bind (mapM (fun c =>
    bind (mapM (fun jn : nat * Z =>
      match max_num_nbrs with
      | None => Err TypeError   (* False[...] *)
      | Some ws => bind (get ws (fst jn)) (fun w => bind (_get_nbrs_indices site_index table c (snd jn) (Some w)) (fun l => Ok (w, l)))
      end) (enumerate nbrs)) concat1) centers) (fun parts =>
  match parts with
  | [] => Err ValueError
  | _ => if widths_agree parts then Ok (concat parts) else Err ValueError
  end).

(** premise.py:59-152.  [sub] is the subtraction of coordinates. *)
Variable sub : P -> P -> P.
Definition pair_feature : Type := (list (list Z) * list (list D) * list (list P))%type.
Definition extract_feature_pair (table : list neigh_row) (center nbr : Z) : result (nat * pair_feature) :=
  bind (masks center nbr (map (fun r => fst (fst r)) table)) (fun ms =>
  let real := list_max0 (map (fun m => count_mask (snd m)) ms) in
  bind (mapM (fun r : neigh_row => bind (get (snd r) 0) (fun c0 => Ok (map (fun p => sub p c0) (snd r)))) table) (fun rel =>
  bind (mapM (fun x : ((bool * list bool) * neigh_row) * list P =>
          let '(((_, m), (an, d, _)), rc) := x in
          bind (masked m an) (fun a => bind (masked m d) (fun dd => bind (masked m rc) (fun cc =>
          bind (write_prefix 0%Z real (count_mask m) a) (fun a' => bind (write_prefix zeroD real (count_mask m) dd) (fun d' =>
          bind (write_prefix zeroP real (count_mask m) cc) (fun c' => Ok (a', d', c'))))))))
        (filter (fun x : ((bool * list bool) * neigh_row) * list P => fst (fst (fst x))) (combine (combine ms table) rel))) (fun rows =>
  Ok (real, (map (fun r => fst (fst r)) rows, map (fun r => snd (fst r)) rows, map snd rows))))).

(** premise.py:155-187 *)
Definition expand_rc (table : list neigh_row) (center nbr : Z) (max_num_nbrs : nat) : result (list (list P)) :=
  bind (extract_feature_pair table center nbr) (fun f =>
  let '(real, (_, _, rc)) := f in
  if real <=? max_num_nbrs then Ok (map (fun r => r ++ repeat zeroP (max_num_nbrs - real)) rc) else Err AssertionError).

End Neigh.

(** neigh.py:314-347 with Cartesian coordinates.  Distances are real, compared exactly. *)
Definition vdist (p c : vec) : R := vnorm (vsub p c).
Definition Rleb (a b : R) : bool := if Rle_dec a b then true else false.
Definition vzero : vec := (0, 0, 0)%R.
Definition structure_neighbors_v1 (argsort : list R -> list nat) (A B C : vec) (sites : list (Z * vec)) (rcut : R) (s0 s1 s2 : Z) (reformat_mark : bool)
  : result (list (list Z * list R * list vec)) :=
  bind (make_supercell_ vec (translate_R A B C) s0 s1 s2 reformat_mark sites) (fun supercell =>
  bind (get_key_idxs vec (translate_R A B C) s0 s1 s2 sites) (fun key_idxs =>
  key_neighs_info vdist Rleb argsort vzero 0%R supercell key_idxs rcut)).
(** neigh.py:11-55 with Cartesian coordinates. *)
Definition structure_max_nbrs (A B C : vec) (sites : list (Z * vec)) (rcut : R) (s0 s1 s2 : Z) : result Z :=
  bind (get_key_idxs vec (translate_R A B C) s0 s1 s2 sites) (fun key_idxs =>
  bind (make_supercell_ vec (translate_R A B C) s0 s1 s2 true sites) (fun supercell =>
  max_num_nbrs_real vdist Rleb supercell key_idxs rcut)).

(** neigh.py:275-288 and premise.py:24-38, the registries.  Classes are numbers; [None] is the
    Python object None, which is what the decorated name is bound to (the wrapper returns
    nothing), and what would be registered by registering that name again. *)
Definition registry : Type := list (string * option nat).
Fixpoint reg_set (r : registry) (k : string) (v : option nat) : registry :=
  match r with [] => [(k, v)] | (k', v') :: t => if String.eqb k k' then (k', v) :: t else (k', v') :: reg_set t k v end.
Fixpoint reg_get (r : registry) (k : string) : result (option nat) :=
  match r with [] => Err KeyError | (k', v) :: t => if String.eqb k k' then Ok v else reg_get t k end.
(** [@register(name) class ...]: the new registry and what the class name is bound to. *)
Definition register (r : registry) (name : string) (cls : option nat) : registry * option nat := (reg_set r name cls, None).
(** [create]: the class to be instantiated. *)
Definition create (r : registry) (name : string) : result nat :=
  bind (reg_get r name) (fun c => match c with None => Err ValueError | Some c => Ok c end).
(** Calling a decorated name. *)
Definition call (bound : option nat) : result nat := match bound with None => Err TypeError | Some c => Ok c end.
(** The registry after a history of decorated classes. *)
Definition registered (h : list (string * option nat)) : registry := fold_left (fun r e => fst (register r (fst e) (snd e))) h [].
