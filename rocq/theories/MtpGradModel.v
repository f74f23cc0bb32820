(** Model of the gradients of the moment tensor descriptor: the operations recorded by the
    forward passes of source/descriptor/mtp/src/mtpMAngularOp.cc, mtpMModule.cc and
    mtpBModule.cc (see MtpValueModel) run backwards, with the two hand-written backward passes
    (mtpMRadialOp.cc:88-135, in ChebModel, and mtpMAngularOp.cc:34-40).  The gradient rules of
    the operations of libtorch itself (tensordot, dot, products, sums, copies into an entry) are
    taken from its documentation.  Real numbers, no rounding.  Not modelled: data types, devices,
    the graph objects and their memory; a coefficient row that is never used has gradient zero
    here, an undefined gradient in libtorch. *)
From Verif Require Export MtpValueModel.
From Verif Require Import DataModel.
Local Open Scope R_scope.

(** libtorch: the gradients of [tensordot(a, b)] over [n] pairs of dimensions with respect to its
    first and second argument, [g] being the gradient with respect to the result. *)
Definition tensordot_back_l (a b g : tensor) (n : nat) : tensor :=
  Tensor (rank a) (fun i => sum_idx (rank b - n) (fun j => at_ g (firstn (rank a - n) i ++ j) * at_ b (skipn (rank a - n) i ++ j))).
Definition tensordot_back_r (a b g : tensor) (n : nat) : tensor :=
  Tensor (rank b) (fun i => sum_idx (rank a - n) (fun j => at_ g (j ++ skipn n i) * at_ a (j ++ firstn n i))).

(** A row of three numbers taken out of a tensor with one dimension. *)
Definition as_vec (t : tensor) : vec := (at_ t [0%nat], at_ t [1%nat], at_ t [2%nat]).

(** mtpMAngularOp.cc:73-88 backwards, for one neighbour and m + 1 directions: every pass of the
    loop (79-84) uses the coordinates once more. *)
Fixpoint angular_back_from (m : nat) (r : vec) (g : tensor) : vec :=
  match m with
  | 0%nat => as_vec g
  | S m' =>
    let t := angular (S m') r in
    vadd (angular_back_from m' r (tensordot_back_l t (of_vec r) g 0)) (as_vec (tensordot_back_r t (of_vec r) g 0))
  end.
(** mtpMAngularOp.cc:34-40, [OuterNu0Function::backward]: zeros without directions. *)
Definition angular_back (nu : nat) (r : vec) (g : tensor) : vec :=
  match nu with 0%nat => (0, 0, 0) | S m => angular_back_from m r g end.

(** What one neighbour in one moment adds to the gradients: to its own coordinates, and to a row
    of the coefficient list. *)
Definition share : Type := (vec * (Z * list R))%type.

Section Gradient.
(** As in MtpValueModel. *)
Variables (size : nat) (rcut rcut_smooth : R) (old : tables).
Variables (ntypes : Z) (coeffs : list (list R)).

(** mtpMModule.cc:65-70 backwards, for one neighbour; [g] is the gradient with respect to the
    moment (the sum of line 70 hands it to every neighbour). *)
Definition neighbour_back (types : list Z) (mu nu : nat) (z_i : Z) (g : tensor) (nb : Z * vec) : result share :=
  bind (pyget types (fst nb)) (fun z_j =>
  bind (coeff_row coeffs (coeff_index ntypes mu z_i z_j)) (fun c =>
  bind (radial_forward size rcut rcut_smooth (snd nb) old) (fun q =>
  bind (dot_rows c (fst q)) (fun w =>
  let gw := sum_idx nu (fun i => at_ g i * at_ (angular nu (snd nb)) i) in
  bind (radial_backward (map (fun x => gw * x) c) (snd q)) (fun out =>
  match out with
  | [x; y; z] => Ok (vadd (x, y, z) (angular_back nu (snd nb) (tscale w g)), (coeff_index ntypes mu z_i z_j, map (fun x => gw * x) (fst q)))
  | _ => Err IndexError
  end))))).
Definition moment_back (types : list Z) (iidx : Z) (nbs : list (Z * vec)) (mu nu : nat) (g : tensor) : result (list share) :=
  bind (pyget types iidx) (fun z_i => mapM (neighbour_back types mu nu z_i g) nbs).

(** mtpBModule.cc:56-87 backwards: [t] is the running product before the members [c]; the
    gradient with respect to it, and the shares of the members. *)
Fixpoint product_back (types : list Z) (iidx : Z) (nbs : list (Z * vec)) (seed : R) (t : tensor) (c : list (nat * nat)) : result (tensor * list (list share)) :=
  match c with
  | [] => if (rank t =? 0)%nat then Ok (of_scalar seed, []) else Err ValueError
  | p :: c' =>
    bind (moment_of size rcut rcut_smooth old ntypes coeffs types iidx nbs (fst p) (snd p)) (fun m =>
    if (rank m <=? rank t)%nat then
      bind (product_back types iidx nbs seed (tensordot t m (rank m)) c') (fun r =>
      bind (moment_back types iidx nbs (fst p) (snd p) (tensordot_back_r t m (fst r) (rank m))) (fun s =>
      Ok (tensordot_back_l t m (fst r) (rank m), s :: snd r)))
    else if (rank t =? 0)%nat then
      bind (product_back types iidx nbs seed (tscale (at_ t []) m) c') (fun r =>
      bind (moment_back types iidx nbs (fst p) (snd p) (tscale (at_ t []) (fst r))) (fun s =>
      Ok (of_scalar (sum_idx (rank m) (fun i => at_ (fst r) i * at_ m i)), s :: snd r)))
    else Err AssertionError)
  end.
Definition basis_back (types : list Z) (iidx : Z) (nbs : list (Z * vec)) (seed : R) (c : list (nat * nat)) : result (list (list share)) :=
  bind (product_back types iidx nbs seed (of_scalar 1) c) (fun r => Ok (snd r)).

(** Gradients of the same tensor are added up: the rows of the neighbours, and the list of
    coefficient rows. *)
Definition coord_grad (n : nat) (l : list (list share)) : list vec :=
  fold_right (fun row acc => map (fun p => vadd (fst (fst p)) (snd p)) (combine row acc)) (repeat (0, 0, 0) n) l.
Definition coeff_grad (l : list share) : list (list R) :=
  map (fun k => map (fun n => add_up (map (fun s => if (fst (snd s) =? Z.of_nat k)%Z then nth n (snd (snd s)) 0 else 0) l)) (seq 0 size))
    (seq 0 (length coeffs)).

(** mtpBModule.cc:55-88, one atom: all its values. *)
Definition descriptor_row (types : list Z) (iidx : Z) (nbs : list (Z * vec)) (combs : list (list (nat * nat))) : result (list R) :=
  mapM (basis_value size rcut rcut_smooth old ntypes coeffs types iidx nbs) combs.
(** Backwards, [grads] being the gradient with respect to these values: the gradients with
    respect to the relative coordinates and to the coefficients. *)
Definition atom_back (types : list Z) (iidx : Z) (nbs : list (Z * vec)) (combs : list (list (nat * nat))) (grads : list R) : result (list vec * list (list R)) :=
  if (length grads =? length combs)%nat then
    bind (mapM (fun cg => basis_back types iidx nbs (snd cg) (fst cg)) (combine combs grads)) (fun ls =>
    Ok (coord_grad (length nbs) (concat ls), coeff_grad (concat (concat ls))))
  else Err ValueError.
End Gradient.
