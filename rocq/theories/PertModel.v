(** Model of matersdk/adalearn/generator/perturbation.py.

    Matrices are triples of rows of real numbers (no rounding).  The random numbers are arguments:
    [rand] the six numbers of [np.random.rand(6)], [randn] the three of each [np.random.randn(3)].
    [qr] stands for [np.linalg.qr]; which of the several decompositions it returns is left open. *)
From Verif Require Export Vec.

Notation mat := (prod (prod vec vec) vec).
Definition row0 (m : mat) : vec := fst (fst m).
Definition row1 (m : mat) : vec := snd (fst m).
Definition row2 (m : mat) : vec := snd m.
Definition col0 (m : mat) : vec := (vx (row0 m), vx (row1 m), vx (row2 m)).
Definition col1 (m : mat) : vec := (vy (row0 m), vy (row1 m), vy (row2 m)).
Definition col2 (m : mat) : vec := (vz (row0 m), vz (row1 m), vz (row2 m)).
Definition transpose (m : mat) : mat := (col0 m, col1 m, col2 m).
(** [np.matmul(v, m)] for a row and for a matrix *)
Definition vmul (v : vec) (m : mat) : vec := (dot v (col0 m), dot v (col1 m), dot v (col2 m)).
Definition mmul (a b : mat) : mat := (vmul (row0 a) b, vmul (row1 a) b, vmul (row2 a) b).
Definition mneg (m : mat) : mat := (vscale (-1) (row0 m), vscale (-1) (row1 m), vscale (-1) (row2 m)).
Definition mdet (m : mat) : R := det (row0 m) (row1 m) (row2 m).

(** The part of a structure that matters here: [lattice.matrix], [species], [cart_coords]. *)
Record structure (A : Type) := { lattice : mat; species : list A; cart_coords : list vec }.
Arguments lattice {A}. Arguments species {A}. Arguments cart_coords {A}.

Record six := { r0 : R; r1 : R; r2 : R; r3 : R; r4 : R; r5 : R }.

(** perturbation.py:61-71, [get_cell_perturb_matrix] *)
Definition get_cell_perturb_matrix (cell_pert_fraction : R) (e0 : six) : result mat :=
  if Rlt_dec cell_pert_fraction 0 then Err RuntimeError
  else
    let e x := (x * 2 - 1) * cell_pert_fraction in
    Ok ((1 + e (r0 e0), / 2 * e (r5 e0), / 2 * e (r4 e0)),
        (/ 2 * e (r5 e0), 1 + e (r1 e0), / 2 * e (r3 e0)),
        (/ 2 * e (r4 e0), / 2 * e (r3 e0), 1 + e (r2 e0))).

(** perturbation.py:74-82, [get_atom_perturb_vector] *)
Definition get_atom_perturb_vector (atom_pert_distance : R) (e : vec) : result vec :=
  if Rlt_dec atom_pert_distance 0 then Err RuntimeError
  else Ok (vscale (/ sqrt 3) (vscale atom_pert_distance e)).

Section Qr.
Variable qr : mat -> mat * mat.
Context {A : Type}.

(** perturbation.py:85-110, [rot_lower_triangular]; [cell], [coords] are the attributes set by
    [perturb].  [rr] is computed and not used. *)
Definition sign_of (x : R) : R := if Rlt_dec x 0 then -1 else 1.
Definition rot_lower_triangular (cell : mat) (coords : list vec) (sp : list A) : result (structure A) :=
  let '(qq, _) := qr (transpose cell) in
  let qq := if Rlt_dec (mdet qq) 0 then mneg qq else qq in
  let cell := mmul cell qq in
  let coords := map (fun v => vmul v qq) coords in
  let rot : mat := ((sign_of (vx (row0 cell)), 0, 0), (0, sign_of (vy (row1 cell)), 0), (0, 0, sign_of (vz (row2 cell)))) in
  if Req_EM_T (mdet rot) 1 then
    Ok {| lattice := mmul cell rot; species := sp; cart_coords := map (fun v => vmul v rot) coords |}
  else Err AssertionError.

(** perturbation.py:48-58, the body of the loop of [perturb]: [randn kk] for atom [kk]. *)
Fixpoint displace (atom_pert_distance : R) (randn : nat -> vec) (kk : nat) (coords : list vec) : result (list vec) :=
  match coords with
  | [] => Ok []
  | v :: coords =>
      bind (get_atom_perturb_vector atom_pert_distance (randn kk)) (fun d =>
      bind (displace atom_pert_distance randn (S kk) coords) (fun rest => Ok (vadd v d :: rest)))
  end.
Definition perturb_once (s : structure A) (cell_pert_fraction atom_pert_distance : R) (rand : six) (randn : nat -> vec) : result (structure A) :=
  bind (get_cell_perturb_matrix cell_pert_fraction rand) (fun m =>
  let cell := mmul (lattice s) m in
  let coords := map (fun v => vmul v m) (cart_coords s) in
  bind (displace atom_pert_distance randn 0 coords) (fun coords =>
  rot_lower_triangular cell coords (species s))).

(** perturbation.py:18-58, [perturb]: round [jj] uses the random numbers [rand jj] and [randn jj]. *)
Definition perturb (s : structure A) (pert_num : nat) (cell_pert_fraction atom_pert_distance : R) (rand : nat -> six) (randn : nat -> nat -> vec) : result (list (structure A)) :=
  mapM (fun jj => perturb_once s cell_pert_fraction atom_pert_distance (rand jj) (randn jj)) (seq 0 pert_num).
End Qr.
