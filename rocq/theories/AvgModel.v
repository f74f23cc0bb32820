(** Model of matersdk/feature/avg: average bond lengths, bond angles, bond lengths along a
    trajectory and mean squared displacements.  Real numbers, no rounding; numpy's nan (the mean
    of nothing) is [None].  Frames are given by their Cartesian coordinates. *)
From Verif Require Import Arr Vec SeModel NeighModel DataModel.
Local Open Scope R_scope.

Definition sum_list (l : list R) : R := fold_right Rplus 0 l.
(** A sum divided by a count. *)
Definition mean_of (s : R) (n : nat) : option R := if (n =? 0)%nat then None else Some (s / INR n).

(** *** avgbond.py *)

(** [np.where(mask, distances, 0)] for one row; arrays of different shapes raise ValueError. *)
Definition where_row (m : list bool) (d : list R) : result (list R) :=
  if (length m =? length d)%nat then Ok (map (fun p : bool * R => if fst p then snd p else 0) (combine m d)) else Err ValueError.

(** avgbond.py:82-130, [AvgBond.get_avg_bond_length]; the masks are those of [NeighModel]. *)
Definition get_avg_bond_length (table : list (list Z * list R * list vec)) (a1 a2 : Z) : result (option R) :=
  bind (masks a1 a2 (map (fun r => fst (fst r)) table)) (fun ms =>
  bind (mapM (fun mr : (bool * list bool) * (list Z * list R * list vec) => where_row (snd (fst mr)) (snd (fst (snd mr)))) (combine ms table)) (fun rows =>
  let effective := concat rows in
  let num_bonds := length (filter (fun d => if Req_EM_T d 0 then false else true) effective) in
  Ok (mean_of (sum_list effective) num_bonds))).

(** avgbond.py:316-336, [PairBond.get_frames_pair_bond]. *)
Definition get_frames_pair_bond (frames : list (list vec)) (i j : Z) : result (list R) :=
  mapM (fun coords => bind (pyget coords i) (fun p => bind (pyget coords j) (fun q => Ok (vnorm (vsub q p))))) frames.

(** [mp.Pool(os.cpu_count() - 2)] needs at least one process. *)
Definition starmap {A B} (cpus : Z) (f : A -> result B) (args : list A) : result (list B) :=
  if (cpus - 2 <? 1)%Z then Err ValueError else mapM f args.

(** *** msd.py *)

(** Subtraction of coordinate arrays with numpy's broadcasting. *)
Definition coords_minus (a b : list vec) : result (list vec) :=
  if (length a =? length b)%nat then Ok (map (fun p => vsub (fst p) (snd p)) (combine a b))
  else match a, b with
       | [x], _ => Ok (map (fun y => vsub x y) b)
       | _, [y] => Ok (map (fun x => vsub x y) a)
       | _, _ => Err ValueError
       end.

(** msd.py:105-119, [MsdParallelFunction.calc_msd_s]. *)
Definition calc_msd_s (s1 s2 : list vec) : result (option R) :=
  bind (coords_minus s2 s1) (fun rel => Ok (mean_of (sum_list (map norm2 rel)) (length rel))).

(** structure.py:578-599, [DStructure.get_centroid]. *)
Definition get_centroid (s : list vec) : vec := vscale (/ INR (length s)) (fold_right vadd (0, 0, 0) s).

(** msd.py:122-137, [MsdParallelFunction.calc_msd_sub_centroid_s]. *)
Definition calc_msd_sub_centroid_s (s1 s2 : list vec) : result (option R) :=
  bind (coords_minus (map (fun p => vsub p (get_centroid s2)) s2) (map (fun p => vsub p (get_centroid s1)) s1)) (fun rel =>
  Ok (mean_of (sum_list (map norm2 rel)) (length rel))).

(** msd.py:64-69 and 89-94, the pairs of frames handed to the workers. *)
Definition frame_pairs (frames : list (list vec)) : result (list (list vec * list vec)) :=
  mapM (fun k => bind (get frames (k - 1)) (fun a => bind (get frames k) (fun b => Ok (a, b)))) (seq 1 (length frames - 1)).
(** msd.py:55-76, [Msd.calc_msd], and 79-101, [Msd.calc_msd_sub_centroid]. *)
Definition calc_msd (cpus : Z) (frames : list (list vec)) : result (list (option R)) :=
  bind (frame_pairs frames) (starmap cpus (fun p => calc_msd_s (fst p) (snd p))).
Definition calc_msd_sub_centroid (cpus : Z) (frames : list (list vec)) : result (list (option R)) :=
  bind (frame_pairs frames) (starmap cpus (fun p => calc_msd_sub_centroid_s (fst p) (snd p))).

(** msd.py:32-43, [DiffractionIntensity.calc_di]. *)
Definition calc_di (cpus : Z) (frames : list (list vec)) (q : R) : result (list (option R)) :=
  bind (calc_msd cpus frames) (fun l => Ok (map (option_map (fun m => exp (- q ^ 2 * m / 3))) l)).

(** *** avgangle.py and the angle filter of avgbond.py *)

(** avgangle.py:65-72 and avgbond.py:186-193, [get_angle], in degrees. *)
Definition get_angle (u v : vec) : R := acos (dot u v / (vnorm u * vnorm v)) * (180 / PI).

(** [np.array_equal(v, np.zeros(3))] *)
Definition is_zero (v : vec) : bool :=
  if Req_EM_T (vx v) 0 then if Req_EM_T (vy v) 0 then if Req_EM_T (vz v) 0 then true else false else false else false.

(** avgangle.py:77-105 and avgbond.py:213-254, the loops: pairs of rows that are not padding.
    For equal elements the second index starts at the first one. *)
Definition pairs_of_centre (same : bool) (r2 r3 : list vec) : list (vec * vec) :=
  flat_map (fun jv : nat * vec => flat_map (fun w => if negb (is_zero (snd jv)) && negb (is_zero w) then [(snd jv, w)] else [])
    (if same then skipn (fst jv) r3 else r3)) (combine (seq 0 (length r2)) r2).
Definition all_pairs_of (same : bool) (rc2 rc3 : list (list vec)) : list (vec * vec) :=
  flat_map (fun rr => pairs_of_centre same (fst rr) (snd rr)) (combine rc2 rc3).

(** avgangle.py:92-110: the mean angle and the order parameter.  The test [angle >= 0] of line 92
    only removes nan, which does not occur here. *)
Definition get_avg_angle (same : bool) (rc2 rc3 : list (list vec)) : option R * R :=
  let angles := map (fun p => get_angle (fst p) (snd p)) (all_pairs_of same rc2 rc3) in
  (mean_of (sum_list angles) (length angles),
   1 - 3 / 8 * sum_list (map (fun a => (1 / 3 + cos (a * (PI / 180))) ^ 2) angles)).

(** avgbond.py:196-263: rows (angle, shorter bond, longer bond) of the pairs near an angle. *)
Definition get_bond_lengths_according2angle (same : bool) (rc2 rc3 : list (list vec)) (standard epsilon : R) : list (R * R * R) :=
  map (fun p => (get_angle (fst p) (snd p), Rmin (vnorm (fst p)) (vnorm (snd p)), Rmax (vnorm (fst p)) (vnorm (snd p))))
    (filter (fun p => if Rlt_dec (Rabs (get_angle (fst p) (snd p) - standard)) epsilon then true else false) (all_pairs_of same rc2 rc3)).
