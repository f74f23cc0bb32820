(** Model of matersdk/io/pwmat/input/inkpt.py (k-point path), of
    matersdk/calculation/kpoints/kmesh.py and of [judge_vacuum_exist] in
    matersdk/io/publicLayer/structure.py.  Real numbers stand for floats. *)
From Verif Require Import Text Vec.
Open Scope nat_scope.
Open Scope list_scope.

Section Path.
(** [float(token)] and the rows of [structure.lattice.reciprocal_lattice.matrix]. *)
Variable float_of : string -> result R.
Variables (b1 b2 b3 : vec).

(** inkpt.py:80-101: the lines after the first two.  Rows of different lengths cannot
    form an array, rows that are not three numbers cannot be multiplied with the
    lattice (inkpt.py:124), nor can no rows at all: ValueError. *)
Definition coord_of (line : string) : result vec :=
  bind (mapM float_of (firstn 3 (split_ws line))) (fun c =>
  match c with [x; y; z] => Ok (x, y, z) | _ => Err ValueError end).
Definition get_kpt_coords_frac (lines : list string) : result (list vec) :=
  match lines with [] => Err ValueError | _ => mapM coord_of lines end.

(** inkpt.py:104-124 *)
Definition get_kpt_coords_A (lines : list string) : result (list vec) :=
  bind (get_kpt_coords_frac lines) (fun fs => Ok (map (fun f => comb b1 b2 b3 (vx f) (vy f) (vz f)) fs)).

(** inkpt.py:202-224: the keys, in order. *)
Definition hsp_indices (lines : list string) : list nat :=
  map fst (filter (fun p => List.length (split_ws (snd p)) =? 5) (combine (seq 0 (List.length lines)) lines)).

(** inkpt.py:227-252 *)
Fixpoint diffs (l : list vec) : list R :=
  match l with
  | p :: (q :: _) as r => sqrt (norm2 (vsub q p)) :: diffs r
  | _ => []
  end.
Definition distance_from_nbr (coords : list vec) : list R := 0%R :: diffs coords.

(** [np.cumsum] *)
Fixpoint cumsum_from (acc : R) (l : list R) : list R :=
  match l with [] => [] | x :: r => (acc + x)%R :: cumsum_from (acc + x)%R r end.

(** inkpt.py:281-285: keys one after the other. *)
Fixpoint jumps (keys : list nat) : list nat :=
  match keys with
  | a :: (b :: _) as r => if b - a =? 1 then b :: jumps r else jumps r
  | _ => []
  end.
Fixpoint cut_at (l : list R) (starts : list nat) : list (list R) :=
  match starts with
  | a :: (b :: _) as r => slice a b l :: cut_at l r
  | _ => []
  end.

(** inkpt.py:255-298 *)
Definition split_distances (lines : list string) : result (list (list R)) :=
  bind (get_kpt_coords_A lines) (fun coords =>
  let nbr := distance_from_nbr coords in
  Ok (cut_at (cumsum_from 0 nbr) (0 :: jumps (hsp_indices lines) ++ [List.length nbr]))).

(** inkpt.py:319-340 *)
Definition last_of (l : list R) : result R := match rev l with x :: _ => Ok x | [] => Err IndexError end.
Fixpoint join (out : list R) (segments : list (list R)) : result (list R) :=
  match segments with
  | [] => Ok out
  | seg :: r =>
      bind (last_of out) (fun c => bind (get seg 0) (fun m =>
      join (out ++ map (fun d => d + c - m)%R seg) r))
  end.
Definition get_distance_from_gamma_A (lines : list string) : result (list R) :=
  bind (split_distances lines) (fun segs =>
  match segs with [] => Ok [] | s :: r => join s r end).

(** inkpt.py:343-368 *)
Definition get_distance_from_gamma_bohr (lines : list string) : result (list R) :=
  bind (get_distance_from_gamma_A lines) (fun l => Ok (map (fun v => v * (529177249 / 10 ^ 9))%R l)).
End Path.

(** ** Vacuum and k-mesh *)

(** [np.max], [np.min] of a non-empty list. *)
Definition rmax (x : R) (l : list R) : R := fold_left Rmax l x.
Definition rmin (x : R) (l : list R) : R := fold_left Rmin l x.

(** structure.py:183-211 for one direction: the length of the lattice vector against the
    extent of the Cartesian coordinates with the same number. *)
Definition vacuum_axis (length : R) (coords : list R) : result bool :=
  match coords with
  | [] => Err ValueError
  | x :: r => Ok (if Rlt_dec 10 (length - (rmax x r - rmin x r)) then true else false)
  end.
Definition judge_vacuum_exist (A B C : vec) (cart : list vec) : result (bool * bool * bool) :=
  bind (vacuum_axis (sqrt (norm2 A)) (map vx cart)) (fun vac0 =>
  bind (vacuum_axis (sqrt (norm2 B)) (map vy cart)) (fun vac1 =>
  bind (vacuum_axis (sqrt (norm2 C)) (map vz cart)) (fun vac2 => Ok (vac0, vac1, vac2)))).

(** [np.round]: nearest integer, halves to even. *)
Definition np_round (x : R) : Z :=
  let f := Int_part x in
  if Rlt_dec (x - IZR f) (1 / 2) then f
  else if Rlt_dec (1 / 2) (x - IZR f) then (f + 1)%Z
  else if Z.even f then f else (f + 1)%Z.

(** kmesh.py:57-75 for one direction; [b] is the reciprocal vector. *)
Definition mesh_axis (density : R) (b : vec) (vacuum : bool) : Z :=
  let k := np_round (sqrt (norm2 b) / (density * 2 * PI)) in
  let k := if vacuum then 1%Z else k in
  if (k =? 0)%Z then 1%Z else k.

(** kmesh.py:42-75 *)
Definition get_kmesh (A B C b1 b2 b3 : vec) (cart : list vec) (density : R) : result (Z * Z * Z) :=
  if Req_EM_T density 0 then Ok (1, 1, 1)%Z else
  bind (judge_vacuum_exist A B C cart) (fun v =>
  Ok (mesh_axis density b1 (fst (fst v)), mesh_axis density b2 (snd (fst v)), mesh_axis density b3 (snd v))).

(** ** Building the object *)

Section Object.
(** Structures and the two readers of structure.py:51-61. *)
Variable Structure : Type.
Variables read_pwmat read_other : string -> result Structure.

(** structure.py:28-63, called with keyword arguments only (name and value).  Python raises
    TypeError for a name that is not a parameter and for a parameter without default that is
    missing; [sort] is not used. *)
Definition argument (name : string) (kws : list (string * string)) : option string :=
  match find (fun kw => String.eqb (fst kw) name) kws with Some kw => Some (snd kw) | None => None end.
Definition from_file (kws : list (string * string)) : result Structure :=
  if forallb (fun kw => existsb (String.eqb (fst kw)) ["file_path"; "file_format"; "sort"]%string) kws then
    match argument "file_path" kws, argument "file_format" kws with
    | Some path, Some format => if String.eqb format "pwmat" then read_pwmat path else read_other path
    | _, _ => Err TypeError
    end
  else Err TypeError.
(** kmesh.py:7-15: the structure of a new [KMesh]. *)
Definition kmesh_construct (file_format file_path : string) : result Structure :=
  from_file [("file_format", file_format); ("file_path", file_path); ("coords_are_cartesian", "False")]%string.
(** inkpt.py:118-121 and 140-143 *)
Definition inkpt_structure (atom_config_path : string) : result Structure :=
  from_file [("file_path", atom_config_path); ("file_format", "pwmat")]%string.
End Object.
