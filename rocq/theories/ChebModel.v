(** Model of the radial basis of the moment descriptors:
    source/descriptor/mtpr/include/basis.h and source/descriptor/mtp/include/mtpMRadial.h,
    source/descriptor/mtp/src/mtpMRadialOp.cc.  Real numbers, no rounding. *)
From Verif Require Export Arr SeModel.
Open Scope R_scope.

(** The three arrays of the polynomial class: values, derivatives in the scaled
    variable, derivatives in the distance. *)
Definition tables : Type := (list R * list R * list R)%type.

(** basis.h:291-305 and mtpMRadial.h:380-398: one pass of the recursion. *)
Definition cheb_step (u coeff : R) (st : tables) (ii : nat) : result tables :=
  let '(v, d, e) := st in
  bind (match ii with
        | 0%nat => Ok (1, 0)
        | 1%nat => Ok (u, 1)
        | _ => bind (get v (ii - 1)) (fun v1 => bind (get v (ii - 2)) (fun v2 =>
               bind (get d (ii - 1)) (fun d1 => bind (get d (ii - 2)) (fun d2 =>
               Ok (2 * u * v1 - v2, 2 * v1 + 2 * u * d1 - d2)))))
        end) (fun vd =>
  bind (set v ii (fst vd)) (fun v' =>
  bind (set d ii (snd vd)) (fun d' =>
  bind (get d' ii) (fun x =>
  bind (set e ii (x * coeff)) (fun e' => Ok (v', d', e')))))).

Definition cheb_loop (size : nat) (u coeff : R) (old : tables) : result tables :=
  foldM (cheb_step u coeff) (seq 0 size) old.

(** basis.h:284-306, [RB_Chebyshev::build].  [old] is what the arrays held before. *)
Definition rb_build (size : nat) (rmax rmin r : R) (old : tables) : result tables :=
  if Rle_dec rmin r then if Rle_dec r rmax then
    cheb_loop size ((2 * r - (rmax + rmin)) / (rmax - rmin)) (2 / (rmax - rmin)) old
  else Err AssertionError else Err AssertionError.

(** basis.h:503-515, [RQ_Chebyshev::build]: values and derivatives. *)
Definition rq_build (size : nat) (rmax rmin r : R) (old : tables) : result (list R * list R) :=
  bind (rb_build size rmax rmin r old) (fun t =>
  let '(v, _, e) := t in
  bind (basis_switch_val rmax rmin r) (fun s =>
  bind (basis_switch_der2r rmax rmin r) (fun ds =>
  bind (mapM (fun ii => bind (get v ii) (fun x => Ok (s * x))) (seq 0 size)) (fun vals =>
  bind (mapM (fun ii => bind (get v ii) (fun x => bind (get e ii) (fun y => Ok (ds * x + s * y)))) (seq 0 size)) (fun ders =>
  Ok (vals, ders)))))).

(** mtpMRadial.h:167-171 and 173-177, [MtpSwitchFunc1]. *)
Definition xi (rcut rcut_smooth r : R) : R := (2 * r - (rcut + rcut_smooth)) / (rcut - rcut_smooth).
Definition xi_deriv2r (rcut rcut_smooth : R) : R := 2 / (rcut - rcut_smooth).

(** mtpMRadial.h:218-231 and 233-245, [MtpSwitchFunc2]. *)
Definition vv_result (rcut rcut_smooth r : R) : R :=
  let uu := (r - rcut_smooth) / (rcut - rcut_smooth) in
  if Rlt_dec r rcut_smooth then 0
  else if Rlt_dec r rcut then uu ^ 3 * (-6 * uu ^ 2 + 15 * uu - 10) + 1 else 0.
Definition vv_deriv2r (rcut rcut_smooth r : R) : R :=
  let uu := (r - rcut_smooth) / (rcut - rcut_smooth) in
  if Rlt_dec r rcut_smooth then 0
  else if Rlt_dec r rcut then 1 / (rcut - rcut_smooth) * (-30 * uu ^ 4 + 60 * uu ^ 3 - 30 * uu ^ 2) else 0.

(** mtpMRadial.h:375-404, [ChebyshevPoly::build]. *)
Definition poly_build (size : nat) (rcut rcut_smooth r : R) (old : tables) : result tables :=
  if Rle_dec rcut_smooth r then if Rlt_dec r rcut then
    cheb_loop size (xi rcut rcut_smooth r) (xi_deriv2r rcut rcut_smooth) old
  else Ok (repeat 0 size, repeat 0 size, repeat 0 size)
  else Ok (repeat 0 size, repeat 0 size, repeat 0 size).

(** mtpMRadial.h:550-562, [MtpQ::build]. *)
Definition mq_build (size : nat) (rcut rcut_smooth r : R) (old : tables) : result (list R * list R) :=
  bind (poly_build size rcut rcut_smooth r old) (fun t =>
  let '(v, _, e) := t in
  bind (mapM (fun ii => bind (get v ii) (fun x => Ok (x * vv_result rcut rcut_smooth r))) (seq 0 size)) (fun vals =>
  bind (mapM (fun ii => bind (get v ii) (fun x => bind (get e ii) (fun y =>
     Ok (y * vv_result rcut rcut_smooth r + x * vv_deriv2r rcut rcut_smooth r)))) (seq 0 size)) (fun ders =>
  Ok (vals, ders)))).

(** mtpMRadialOp.cc:36-84, forward pass for one neighbour: the values and the
    derivatives with respect to the three coordinates. *)
Definition radial_forward (size : nat) (rcut rcut_smooth : R) (d : vec) (old : tables) : result (list R * list (list R)) :=
  let distance := sqrt (vx d ^ 2 + vy d ^ 2 + vz d ^ 2) in
  bind (mq_build size rcut rcut_smooth distance old) (fun q =>
  bind (mapM (fun jj => bind (get (snd q) jj) (fun s =>
     Ok (if Req_EM_T distance 0 then [0; 0; 0] else [s * vx d / distance; s * vy d / distance; s * vz d / distance]))) (seq 0 size))
  (fun ders => Ok (fst q, ders))).

(** mtpMRadialOp.cc:93-134, backward pass for one neighbour: [grad] is the gradient
    with respect to the values. *)
Definition radial_backward (grad : list R) (ders : list (list R)) : result (list R) :=
  foldM (fun acc jj =>
    bind (get grad jj) (fun g => bind (get ders jj) (fun row =>
    bind (get row 0) (fun a => bind (get row 1) (fun b => bind (get row 2) (fun c =>
    match acc with
    | [x; y; z] => Ok [x + g * a; y + g * b; z + g * c]
    | _ => Err IndexError
    end)))))) (seq 0 (length ders)) [0; 0; 0].
