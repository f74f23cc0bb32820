(** Model of matersdk/calculation/kpath/kpathSampler.py: the points and the path in
    reciprocal space along which bands are computed.

    The table of points and the list of paths come from pymatgen
    ([KPathSetyawanCurtarolo.kpath]) and are inputs here, as is the reciprocal lattice.
    Numbers are reals, and a line of the output is a record; the text of a line (six
    decimals) is not modelled. A file that is partly written when an exception is raised is
    represented by the exception alone. *)
From Coq Require Import String Reals.
From Verif Require Import Base Vec ElementModel NbModel.
Local Open Scope string_scope.
Local Open Scope R_scope.

Definition points : Type := list (string * vec).
Definition gamma : string := "\Gamma".

(** [d.pop(k)] for a key that exists. *)
Definition dpop {V} (d : list (string * V)) (k : string) : list (string * V) :=
  filter (fun p => negb (String.eqb k (fst p))) d.

(** kpathSampler.py:184-189: ["\\Gamma"] is taken out and stored as ["G"]; without it the
    [KeyError] is swallowed. *)
Definition rename_points (d : points) : points :=
  match dget String.eqb d gamma with
  | Ok v => dset String.eqb (dpop d gamma) "G" v
  | Err _ => d
  end.

(** kpathSampler.py:191-203 *)
Definition get_kpoints (dimension : Z) (d : points) : result points :=
  let d := rename_points d in
  if (dimension =? 2)%Z then
    Ok (fold_left (fun acc p => if Req_EM_T (vz (snd p)) 0 then dset String.eqb acc (fst p) (snd p) else acc) d [])
  else if (dimension =? 3)%Z then Ok d
  else Err PlainException.

(** [k in d.keys()] *)
Definition has {V} (d : list (string * V)) (k : string) : bool :=
  existsb (fun p => String.eqb k (fst p)) d.

(** kpathSampler.py:222-231 *)
Definition rename_path (p : list string) : list string :=
  if existsb (String.eqb gamma) p
  then map (fun n => if String.eqb n gamma then "G" else n) p
  else p.

(** kpathSampler.py:233-251. Line 240 reads the variable of the loop before it, which has
    no value when there is no path. *)
Definition get_kpaths (dimension : Z) (kpoints : points) (paths : list (list string)) : result (list (list string)) :=
  let new := map rename_path paths in
  if (dimension =? 2)%Z then
    let kept := map (filter (has kpoints)) new in
    match new with
    | [] => Err NameError
    | _ => Ok (filter (fun p => 1 <? length p)%nat kept)
    end
  else if (dimension =? 3)%Z then Ok new
  else Err PlainException.

Record sampler : Type := { kpoints : points; kpaths : list (list string) }.

(** kpathSampler.py:39-45 *)
Definition kpath_sampler (dimension : Z) (d : points) (paths : list (list string)) : result sampler :=
  bind (get_kpoints dimension d) (fun ks =>
  bind (get_kpaths dimension ks paths) (fun ps => Ok {| kpoints := ks; kpaths := ps |})).

(** kpathSampler.py:90-101: one line for each point. *)
Definition highk (s : sampler) : list (vec * string) := map (fun p => (snd p, fst p)) (kpoints s).

(** kpathSampler.py:145-148: the difference, a matrix of one row, times the matrix of the
    reciprocal lattice entry by entry, and the square root of the sum of the squares of the
    nine entries. *)
Definition path_length (b1 b2 b3 : vec) (start dest : vec) : R :=
  let d := vsub dest start in
  let row b := (vx d * vx b, vy d * vy b, vz d * vz b) in
  sqrt (norm2 (row b1) + norm2 (row b2) + norm2 (row b3)).

(** One block of three lines in gen.kpt. *)
Record block : Type := { count : Z; from_at : vec; from_name : string; to_at : vec; to_name : string }.

Section Gen.
Variables b1 b2 b3 : vec.
Variable density : R.
Variable ks : points.

(** kpathSampler.py:136-165, the steps after the first point; [at_] and [name] are
    [position_dest] and [point_dest] of the step before. *)
Fixpoint walk (at_ : vec) (name : string) (path : list string) : result (list block) :=
  match path with
  | [] => Ok []
  | n :: r =>
      bind (dget String.eqb ks n) (fun v =>
      bind (walk v n r) (fun rest =>
      Ok ({| count := ceilZ (path_length b1 b2 b3 at_ v / density);
             from_at := at_; from_name := name; to_at := v; to_name := n |} :: rest)))
  end.

(** kpathSampler.py:131-135 *)
Definition gen_path (path : list string) : result (list block) :=
  match path with
  | [] => Ok []
  | n :: r => bind (dget String.eqb ks n) (fun v => walk v n r)
  end.
End Gen.

(** kpathSampler.py:104-165 *)
Definition gen_kpt (b1 b2 b3 : vec) (density : R) (s : sampler) : result (list block) :=
  bind (mapM (gen_path b1 b2 b3 density (kpoints s)) (kpaths s)) (fun l => Ok (List.concat l)).
