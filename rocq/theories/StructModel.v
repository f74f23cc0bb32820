(** Model of the list operations of matersdk/io/publicLayer/structure.py
    ([DStructure]).  A site is its atomic number and Cartesian position; the
    position type is abstract where positions are only moved. *)
From Verif Require Import Base.

(** Python's stable [list.sort(key=...)]: insertion from the right, an element
    goes in front of the first one whose key is not smaller. *)
Section Sort.
Variable A : Type.
Variable key : A -> Z.
Fixpoint insert (x : A) (l : list A) : list A :=
  match l with
  | [] => [x]
  | y :: r => if (key x <=? key y)%Z then x :: l else y :: insert x r
  end.
Fixpoint sort_by (l : list A) : list A :=
  match l with
  | [] => []
  | x :: r => insert x (sort_by r)
  end.
End Sort.
Arguments insert {A} key x l.
Arguments sort_by {A} key l.

(** [list * n] *)
Definition list_mul {A} (l : list A) (n : Z) : list A := concat (repeat l (Z.to_nat n)).
(** [np.arange(n)] *)
Definition arange (n : Z) : list Z := map Z.of_nat (seq 0 (Z.to_nat n)).

Section Structure.
Variable P : Type.                  (* Cartesian positions *)

Definition site : Type := (Z * P)%type.

(** structure.py:214-226 *)
Definition reformat_elements_ (sites : list site) : list site := sort_by fst sites.

(** structure.py:229-278.  Sites with magnetic moments of type [M].  pymatgen's
    [Structure] raises when species and coordinates differ in number. *)
Definition reformat_elements {M} (elements : list Z) (sites : list (Z * P * M)) : result (list (Z * P * M)) :=
  let new_sites := flat_map (fun e => filter (fun s => (fst (fst s) =? e)%Z) sites) elements in
  let new_species := map (fun s => fst (fst s)) new_sites in
  let new_coords := map (fun s => snd (fst s)) sites in
  let new_magmom := map snd new_sites in
  if length new_species =? length new_coords
  then Ok (combine (combine new_species new_coords) new_magmom)
  else Err ValueError.

(** structure.py:354-367.  pymatgen's [remove_sites(indices)] keeps the sites
    whose index is not listed; indices past the end are ignored. *)
Fixpoint keep_from (i : nat) (indices : list nat) (l : list site) : list site :=
  match l with
  | [] => []
  | s :: r => if existsb (Nat.eqb i) indices then keep_from (S i) indices r
              else s :: keep_from (S i) indices r
  end.
Definition remove_sites (indices : list nat) (l : list site) : list site := keep_from 0 indices l.
Fixpoint vacancy_indices (is_vac : Z -> bool) (i : nat) (l : list site) : list nat :=
  match l with
  | [] => []
  | s :: r => if is_vac (fst s) then i :: vacancy_indices is_vac (S i) r
              else vacancy_indices is_vac (S i) r
  end.
Definition remove_vacanies (is_vac : Z -> bool) (sites : list site) : list site :=
  let indices := vacancy_indices is_vac 0 sites in
  fold_left (fun cur _ => remove_sites indices cur) indices sites.

(** structure.py:602-636; [Counter] keys keep first-occurrence order. *)
Definition count (z : Z) (l : list Z) : nat := length (filter (Z.eqb z) l).
Fixpoint first_occurrences (seen : list Z) (l : list Z) : list Z :=
  match l with
  | [] => []
  | z :: r => if existsb (Z.eqb z) seen then first_occurrences seen r
              else z :: first_occurrences (z :: seen) r
  end.
(** [order = None] models [False] (and the empty list, which is falsy too). *)
Definition get_natoms (order : option (list Z)) (sites : list site) : list nat :=
  let zs := map fst sites in
  let keys := match order with
              | Some (k :: ks) => k :: ks
              | _ => first_occurrences [] zs
              end in
  length sites :: map (fun z => count z zs) keys.

(** Positions and lattice translations. *)
Variable translate : (Z * Z * Z) -> P -> P.

(** structure.py:396-441.  The coefficients [grid - (s-1)/2] are half-integers
    for even [s]; they are kept doubled, [2*g - (s-1)].  The rows equal to
    [0,0,0] are removed and one such row is put first. *)
Definition doubled_coeffs (s : Z) : list Z := map (fun g => (2 * g - (s - 1))%Z) (arange s).
Definition shift_coeffs (s0 s1 s2 : Z) : list (Z * Z * Z) :=
  let grid := flat_map (fun a => flat_map (fun b => map (fun c => (a, b, c)) (doubled_coeffs s2))
                                          (doubled_coeffs s1)) (doubled_coeffs s0) in
  (0, 0, 0)%Z :: filter (fun t => let '(a, b, c) := t in
                                  negb ((a =? 0) && (b =? 0) && (c =? 0)))%Z grid.

(** structure.py:370-503.  [translate] moves a position by half the given
    (doubled) coefficients times the lattice vectors. *)
Definition make_supercell_ (s0 s1 s2 : Z) (reformat_mark : bool) (sites : list site) : result (list site) :=
  let coords := flat_map (fun sh => map (fun s => translate sh (snd s)) sites) (shift_coeffs s0 s1 s2) in
  let species := list_mul (list_mul (list_mul (map fst sites) s0) s1) s2 in
  if length species =? length coords then
    let supercell := combine species coords in
    Ok (if reformat_mark then reformat_elements_ supercell else supercell)
  else Err AssertionError.

(** structure.py:312-351: positions after sorting of the sites before sorting.
    [sorted_indexes] lists the old indices in the new order and the dictionary
    maps an old index to its position there. *)
Fixpoint index_of (i : nat) (l : list nat) : nat :=
  match l with
  | [] => 0
  | x :: r => if x =? i then 0 else S (index_of i r)
  end.
Definition enumerate {A} (l : list A) : list (nat * A) := combine (seq 0 (length l)) l.
Definition sorted_indexes (sites : list site) : list nat :=
  map fst (sort_by (fun e : nat * site => fst (snd e)) (enumerate sites)).
(** structure.py:281-309.  A missing dictionary key raises KeyError. *)
Definition get_key_idxs (s0 s1 s2 : Z) (sites : list site) : result (list nat) :=
  bind (make_supercell_ s0 s1 s2 false sites) (fun supercell =>
  let sorted := sorted_indexes supercell in
  bind (mapM (fun i => if existsb (Nat.eqb i) sorted then Ok (index_of i sorted) else Err KeyError)
             (seq 0 (length sites))) (fun idxs =>
  Ok (map Z.to_nat (sort_by (fun z => z) (map Z.of_nat idxs))))).
End Structure.
