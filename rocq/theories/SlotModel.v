(** Model of the loops that put each neighbour into its slot:
    source/descriptor/deepmd/include/envMatrix.h and se4pw.h.
    Every pointer argument is a list; lengths are not known to the code. *)
From Verif Require Export Arr SeModel.
Open Scope nat_scope.

(** envMatrix.h:79-83 and se4pw.h:73-78, 232-237: [nstart_idxs]. *)
Definition starts (umax : list nat) : list nat :=
  map (fun ii => fold_left (fun acc jj => acc + nth jj umax 0) (seq 0 ii) 0) (seq 0 (length umax)).

(** envMatrix.h:62-64, se4pw.h:81-83, 239-241: the row width. *)
Definition width (umax : list nat) : nat := fold_left Nat.add umax 0.

Section Fill.
Context {V : Type}.
(** The value memory is set to, how many values a slot has, and the values
    computed for neighbour number [jj] of centre number [ii], atom [idx]. *)
Variable zero : V.
Variable g : nat.
Variable payload : nat -> nat -> nat -> result (list V).
Variables (inum : nat) (numneigh firstneigh types umax : list nat).

(** envMatrix.h:93-163, se4pw.h:99-196, 248-256: one pass of the inner loop.
    The code writes several arrays in the same pass; they are independent and
    each is modelled by a separate run of the loop. *)
Definition neigh_step (ii : nat) (st : list V * list nat) (jj : nat) : result (list V * list nat) :=
  let '(a, nloop) := st in
  bind (get firstneigh (ii * width umax + jj)) (fun idx =>
  bind (get types idx) (fun t =>
  bind (get (starts umax) t) (fun s =>
  bind (get nloop t) (fun c =>
  bind (payload ii jj idx) (fun vs =>
  bind (write_group a (ii * width umax * g + (s + c) * g) vs) (fun a' =>
  bind (set nloop t (c + 1)) (fun nloop' =>
  Ok (a', nloop')))))))).

(** envMatrix.h:89-164, se4pw.h:90-198, 244-257: one pass of the outer loop. *)
Definition centre_step (a : list V) (ii : nat) : result (list V) :=
  bind (get numneigh ii) (fun n =>
  bind (foldM (neigh_step ii) (seq 0 n) (a, repeat 0 (length umax))) (fun st => Ok (fst st))).

Definition fill : result (list V) :=
  foldM centre_step (seq 0 inum) (repeat zero (inum * width umax * g)).
End Fill.

(** envMatrix.h:95-97: the relative position of a neighbour. *)
Definition env_position (relative_coords : list R) (w ii jj : nat) : result vec :=
  bind (get relative_coords (ii * w * 3 + jj * 3 + 0)) (fun x =>
  bind (get relative_coords (ii * w * 3 + jj * 3 + 1)) (fun y =>
  bind (get relative_coords (ii * w * 3 + jj * 3 + 2)) (fun z =>
  Ok (x, y, z)))).

(** envMatrix.h:46-170, [EnvMatrix::find_value_deriv]. *)
Definition find_value_deriv (inum : nat) (numneigh firstneigh : list nat) (relative_coords : list R)
    (types umax : list nat) (rcut rcut_smooth : R) : result (list R * list R) :=
  let w := width umax in
  bind (fill 0%R 4 (fun ii jj _ => bind (env_position relative_coords w ii jj) (fun d =>
          Ok (tilde_row rcut rcut_smooth d))) inum numneigh firstneigh types umax) (fun v =>
  bind (fill 0%R 12 (fun ii jj _ => bind (env_position relative_coords w ii jj) (fun d =>
          Ok (concat (env_deriv rcut rcut_smooth d)))) inum numneigh firstneigh types umax) (fun dv =>
  Ok (v, dv))).

(** se4pw.h:92-94, 103-107: read the coordinates of an atom. *)
Definition read_atom (x : list R) (i : nat) : result vec :=
  bind (get x (i * 3 + 0)) (fun a => bind (get x (i * 3 + 1)) (fun b => bind (get x (i * 3 + 2)) (fun c => Ok (a, b, c)))).
Definition pw_position (ilist : list nat) (x : list R) (ii idx : nat) : result vec :=
  bind (get ilist ii) (fun c => bind (read_atom x c) (fun pc => bind (read_atom x idx) (fun pn => Ok (vsub pn pc)))).

(** se4pw.h:43-208, [Se4pw::generate]: values, derivatives, relative coordinates. *)
Definition se4pw_generate (inum : nat) (ilist numneigh firstneigh : list nat) (x : list R)
    (types umax : list nat) (rcut rcut_smooth : R) : result (list R * list R * list R) :=
  let pos ii idx := pw_position ilist x ii idx in
  bind (fill 0%R 4 (fun ii _ idx => bind (pos ii idx) (fun d => Ok (tilde_row rcut rcut_smooth d)))
          inum numneigh firstneigh types umax) (fun v =>
  bind (fill 0%R 12 (fun ii _ idx => bind (pos ii idx) (fun d => Ok (concat (pair_deriv rcut rcut_smooth d))))
          inum numneigh firstneigh types umax) (fun dv =>
  bind (fill 0%R 3 (fun ii _ idx => bind (pos ii idx) (fun d => Ok [vx d; vy d; vz d]))
          inum numneigh firstneigh types umax) (fun rel =>
  Ok (v, dv, rel)))).

(** se4pw.h:213-262, [Se4pw::get_prim_indices_from_matersdk]. *)
Definition prim_indices (inum : nat) (numneigh firstneigh types umax : list nat) : result (list Z) :=
  fill (-1)%Z 1 (fun _ _ idx => Ok [Z.rem (Z.of_nat idx) (Z.of_nat inum)]) inum numneigh firstneigh types umax.
