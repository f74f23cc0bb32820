(** Model of the scalar formulas of the smooth-edition descriptor:
    source/descriptor/deepmd/include/se.h, envMatrix.h, se4pw.h.
    Real numbers stand for [CoordType]; no rounding. *)
From Verif Require Export Vec.
Open Scope R_scope.

(** se.h:59-72, [SwitchFunc::get_result]. *)
Definition switch_result (rcut rcut_smooth r : R) : R :=
  let uu := (r - rcut_smooth) / (rcut - rcut_smooth) in
  if Rlt_dec r rcut_smooth then 1
  else if Rlt_dec r rcut then uu ^ 3 * (-6 * uu ^ 2 + 15 * uu - 10) + 1
  else 0.

(** se.h:75-88, [SwitchFunc::get_deriv2r]. *)
Definition switch_deriv2r (rcut rcut_smooth r : R) : R :=
  let uu := (r - rcut_smooth) / (rcut - rcut_smooth) in
  if Rlt_dec r rcut_smooth then 0
  else if Rlt_dec r rcut then 1 / (rcut - rcut_smooth) * (-30 * uu ^ 4 + 60 * uu ^ 3 - 30 * uu ^ 2)
  else 0.

(** se.h:141-150, [recip]. *)
Definition recip (v : R) : R := if Req_EM_T v 0 then 0 else 1 / v.

(** se.h:109-131, [smooth_func]. *)
Definition smooth_func (rcut rcut_smooth r : R) : R :=
  let r_recip := if Req_EM_T r 0 then 0 else 1 / r in
  let uu := (r - rcut_smooth) / (rcut - rcut_smooth) in
  if Rlt_dec r rcut_smooth then r_recip
  else if Rlt_dec r rcut then r_recip * (uu ^ 3 * (-6 * uu ^ 2 + 15 * uu - 10) + 1)
  else 0.

(** source/core/include/vec3Operation.h:94-99, [norm]. *)
Definition vnorm (d : vec) : R := sqrt (vx d ^ 2 + vy d ^ 2 + vz d ^ 2).

(** The four entries of one neighbour: se.h:815-832 and 936-953, envMatrix.h:97-111,
    se4pw.h:104-127 (the same formulas). *)
Definition tilde_row (rcut rcut_smooth : R) (d : vec) : list R :=
  let r := vnorm d in
  let s := smooth_func rcut rcut_smooth r in
  [s; s * recip r * vx d; s * recip r * vy d; s * recip r * vz d].

(** The twelve derivative entries, 4 rows of 3: se.h:1044-1101 and 1203-1260,
    se4pw.h:133-190 (the same formulas). *)
Definition pair_deriv (rcut rcut_smooth : R) (d : vec) : list (list R) :=
  let r := vnorm d in
  let q := recip r in
  let sw := switch_result rcut rcut_smooth r in
  let dsw := switch_deriv2r rcut rcut_smooth r in
  let x := vx d in let y := vy d in let z := vz d in
  [[sw * x * q ^ 3 - dsw * x * q ^ 2; sw * y * q ^ 3 - dsw * y * q ^ 2; sw * z * q ^ 3 - dsw * z * q ^ 2];
   [2 * x ^ 2 * sw * q ^ 4 - sw * q ^ 2 - x ^ 2 * q ^ 3 * dsw;
    2 * x * y * sw * q ^ 4 - x * y * q ^ 3 * dsw;
    2 * x * z * sw * q ^ 4 - x * z * q ^ 3 * dsw];
   [2 * y * x * sw * q ^ 4 - y * x * q ^ 3 * dsw;
    2 * y ^ 2 * sw * q ^ 4 - sw * q ^ 2 - y ^ 2 * q ^ 3 * dsw;
    2 * y * z * sw * q ^ 4 - y * z * q ^ 3 * dsw];
   [2 * z * x * sw * q ^ 4 - z * x * q ^ 3 * dsw;
    2 * z * y * sw * q ^ 4 - z * y * q ^ 3 * dsw;
    2 * z ^ 2 * sw * q ^ 4 - sw * q ^ 2 - z ^ 2 * q ^ 3 * dsw]].

(** envMatrix.h:113-159. *)
Definition env_deriv (rcut rcut_smooth : R) (d : vec) : list (list R) :=
  let r := vnorm d in
  let q := recip r in
  let sw := switch_result rcut rcut_smooth r in
  let dsw := switch_deriv2r rcut rcut_smooth r in
  let x := vx d in let y := vy d in let z := vz d in
  [[q ^ 2 * dsw * x - q ^ 3 * sw * x; q ^ 2 * dsw * y - q ^ 3 * sw * y; q ^ 2 * dsw * z - q ^ 3 * sw * z];
   [q ^ 3 * dsw * x ^ 2 + q ^ 2 * sw - 2 * q ^ 4 * sw * x ^ 2;
    q ^ 3 * dsw * x * y - 2 * q ^ 4 * sw * x * y;
    q ^ 3 * dsw * x * z - 2 * q ^ 4 * sw * x * z];
   [q ^ 3 * dsw * y * x - 2 * q ^ 4 * sw * y * x;
    q ^ 3 * dsw * y ^ 2 + q ^ 2 * sw - 2 * q ^ 4 * sw * y ^ 2;
    q ^ 3 * dsw * y * z - 2 * q ^ 4 * sw * y * z];
   [q ^ 3 * dsw * z * x - 2 * q ^ 4 * sw * z * x;
    q ^ 3 * dsw * z * y - 2 * q ^ 4 * sw * z * y;
    q ^ 3 * dsw * z ^ 2 + q ^ 2 * sw - 2 * q ^ 4 * sw * z ^ 2]].

(** ** The Python variant: matersdk/feature/deepmd/se_pair.py *)

(** se_pair.py:165-183, [_get_s], for one distance.  [np.reciprocal] of a zero is
    replaced by the [np.where] of line 166. *)
Definition py_s (rcut rcut_smooth r : R) : R :=
  let r_recip := if Req_EM_T r 0 then 0 else / r in
  let x := (r - rcut_smooth) / (rcut - rcut_smooth) in
  let scaled := r_recip * (x ^ 3 * (-6 * x ^ 2 + 15 * x - 10) + 1) in
  if Rlt_dec rcut_smooth r then if Rlt_dec r rcut then scaled else r_recip else r_recip.

(** se_pair.py:210-241, [_get_tildeR], for one neighbour with distance [r] and
    relative position [d]. *)
Definition py_tilde_row (rcut rcut_smooth r : R) (d : vec) : list R :=
  let s := py_s rcut rcut_smooth r in
  let r_recip := if Req_EM_T r 0 then 0 else / r in
  [s; s * r_recip * vx d; s * r_recip * vy d; s * r_recip * vz d].

(** se_pair.py:314-345, the switching value and its derivative. *)
Definition py_vv (rcut rcut_smooth r : R) : R :=
  let uu := (r - rcut_smooth) / (rcut - rcut_smooth) in
  if Rlt_dec r rcut_smooth then 1 else uu ^ 3 * (-6 * uu ^ 2 + 15 * uu - 10) + 1.
Definition py_dvv (rcut rcut_smooth r : R) : R :=
  let uu := (r - rcut_smooth) / (rcut - rcut_smooth) in
  let duu := 1 / (rcut - rcut_smooth) in
  if Rlt_dec r rcut_smooth then 0
  else (3 * uu ^ 2 * (-6 * uu ^ 2 + 15 * uu - 10) + uu ^ 3 * (-12 * uu + 15)) * duu.

(** se_pair.py:379-475, [_calc_derivative], for one neighbour. *)
Definition py_deriv (rcut rcut_smooth r : R) (d : vec) : list (list R) :=
  let q := if Req_EM_T r 0 then 0 else / r in
  let vv := py_vv rcut rcut_smooth r in
  let dvv := py_dvv rcut rcut_smooth r in
  let x := vx d in let y := vy d in let z := vz d in
  [[vv * x * q ^ 3 - q * dvv * x * q; vv * y * q ^ 3 - q * dvv * y * q; vv * z * q ^ 3 - q * dvv * z * q];
   [vv * (2 * x ^ 2 * q ^ 4 - q ^ 2) - x * q ^ 2 * dvv * x * q;
    vv * (2 * x * y * q ^ 4) - x * q ^ 2 * dvv * y * q;
    vv * (2 * x * z * q ^ 4) - x * q ^ 2 * dvv * z * q];
   [vv * (2 * x * y * q ^ 4) - y * q ^ 2 * dvv * x * q;
    vv * (2 * y ^ 2 * q ^ 4 - q ^ 2) - y * q ^ 2 * dvv * y * q;
    vv * (2 * y * z * q ^ 4) - y * q ^ 2 * dvv * z * q];
   [vv * (2 * x * z * q ^ 4) - z * q ^ 2 * dvv * x * q;
    vv * (2 * y * z * q ^ 4) - z * q ^ 2 * dvv * y * q;
    vv * (2 * z ^ 2 * q ^ 4 - q ^ 2) - z * q ^ 2 * dvv * z * q]].

(** source/descriptor/mtpr/include/basis.h:128-156, [SwitchFunction::val] and
    [der2r], including the assertion on the distance. *)
Definition basis_switch_val (rmax rmin r : R) : result R :=
  let uu := (r - rmin) / (rmax - rmin) in
  if Rle_dec rmin r then if Rle_dec r rmax then
    Ok (if Rlt_dec r rmin then 0
        else if Rlt_dec r rmax then uu ^ 3 * (-6 * uu ^ 2 + 15 * uu - 10) + 1 else 0)
  else Err AssertionError else Err AssertionError.
Definition basis_switch_der2r (rmax rmin r : R) : result R :=
  let uu := (r - rmin) / (rmax - rmin) in
  if Rle_dec rmin r then if Rle_dec r rmax then
    Ok (if Rlt_dec r rmin then 0
        else if Rlt_dec r rmax then 1 / (rmax - rmin) * (-30 * uu ^ 4 + 60 * uu ^ 3 - 30 * uu ^ 2) else 0)
  else Err AssertionError else Err AssertionError.
