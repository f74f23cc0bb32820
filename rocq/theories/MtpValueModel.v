(** Model of the values of the moment tensor descriptor:
    source/descriptor/mtp/src/mtpMAngularOp.cc, mtpMModule.cc and mtpBModule.cc, forward passes.
    Real numbers, no rounding.  A tensor whose dimensions all have size 3 is its number of
    dimensions and its entries; only entries at lists of that many numbers below 3 mean
    anything.  Not modelled: gradients (see ChebModel for the radial part), data types and
    devices.  A shape mismatch, an exception of libtorch, is [ValueError] here. *)
From Verif Require Export ChebModel.
From Verif Require Import DataModel.
Local Open Scope R_scope.

Record tensor := Tensor { rank : nat; at_ : list nat -> R }.

Definition component (r : vec) (k : nat) : R := match k with 0%nat => vx r | 1%nat => vy r | _ => vz r end.

(** The sum of [f] over all lists of [n] numbers below 3. *)
Fixpoint sum_idx (n : nat) (f : list nat -> R) : R :=
  match n with
  | 0%nat => f []
  | S m => sum_idx m (fun i => f (0%nat :: i)) + sum_idx m (fun i => f (1%nat :: i)) + sum_idx m (fun i => f (2%nat :: i))
  end.

(** [at::tensordot(a, b, dims1, dims2)] of libtorch, with [dims1] the last [n] dimensions of
    the first and [dims2] the first [n] of the second argument. *)
Definition tensordot (a b : tensor) (n : nat) : tensor :=
  Tensor ((rank a - n) + (rank b - n))
    (fun i => sum_idx n (fun k => at_ a (firstn (rank a - n) i ++ k) * at_ b (k ++ skipn (rank a - n) i))).

(** A tensor without dimensions, and a row of three numbers. *)
Definition of_scalar (x : R) : tensor := Tensor 0 (fun _ => x).
Definition of_vec (r : vec) : tensor := Tensor 1 (fun i => component r (hd 0%nat i)).
(** A number times a tensor. *)
Definition tscale (x : R) (t : tensor) : tensor := Tensor (rank t) (fun i => x * at_ t i).

(** mtpMAngularOp.cc:57-92, [MtpMAngularOp], for one neighbour ([OuterNu0Op] gives 1: lines 17-33). *)
Definition angular (nu : nat) (r : vec) : tensor :=
  match nu with
  | 0%nat => of_scalar 1
  | S m => Nat.iter m (fun t => tensordot t (of_vec r) 0) (of_vec r)
  end.

(** [at::dot]: rows of different lengths are an error. *)
Fixpoint dot_rows (a b : list R) : result R :=
  match a, b with
  | [], [] => Ok 0
  | x :: a', y :: b' => bind (dot_rows a' b') (fun s => Ok (x * y + s))
  | _, _ => Err ValueError
  end.

Section Descriptor.
(** The radial basis (mtpMModule.cc:8-25): number of functions, cutoff, inner cutoff; [old] is
    what the tables of [MtpQ] hold before a neighbour is evaluated. *)
Variables (size : nat) (rcut rcut_smooth : R) (old : tables).
(** mtpMModule.cc:17-23: number of species and the list of coefficient rows. *)
Variables (ntypes : Z) (coeffs : list (list R)).

(** mtpMModule.cc:67, the row of the coefficient list that is used. *)
Definition coeff_index (mu : nat) (z_i z_j : Z) : Z := (Z.of_nat mu * ntypes * ntypes + z_i * ntypes + z_j)%Z.
(** [ParameterList::operator[]] looks a key up and fails when it is absent. *)
Definition coeff_row (k : Z) : result (list R) := if (k <? 0)%Z then Err IndexError else get coeffs (Z.to_nat k).

(** mtpMModule.cc:65-68, the factor of one neighbour.  Indexing of tensors counts negative
    numbers from the end. *)
Definition weight (types : list Z) (mu : nat) (z_i : Z) (nb : Z * vec) : result R :=
  bind (pyget types (fst nb)) (fun z_j =>
  bind (coeff_row (coeff_index mu z_i z_j)) (fun c =>
  bind (radial_forward size rcut rcut_smooth (snd nb) old) (fun q =>
  dot_rows c (fst q)))).

Definition add_up (l : list R) : R := fold_right Rplus 0 l.

(** mtpMModule.cc:38-71, [MtpMModuleImpl::forward].  [nbs] is the row of [firstneigh] together
    with the row of relative coordinates, padding included. *)
Definition moment_of (types : list Z) (iidx : Z) (nbs : list (Z * vec)) (mu nu : nat) : result tensor :=
  bind (pyget types iidx) (fun z_i =>
  bind (mapM (weight types mu z_i) nbs) (fun ws =>
  Ok (Tensor nu (fun i => add_up (map (fun wn => fst wn * at_ (angular nu (snd (snd wn))) i) (combine ws nbs)))))).

(** mtpBModule.cc:56-86, one combination of moments: the running product. *)
Definition product_step (types : list Z) (iidx : Z) (nbs : list (Z * vec)) (acc : result tensor) (p : nat * nat) : result tensor :=
  bind acc (fun t =>
  bind (moment_of types iidx nbs (fst p) (snd p)) (fun m =>
  if (rank m <=? rank t)%nat then Ok (tensordot t m (rank m))
  else if (rank t =? 0)%nat then Ok (tscale (at_ t []) m) else Err AssertionError)).
Definition product_of (types : list Z) (iidx : Z) (nbs : list (Z * vec)) (c : list (nat * nat)) : result tensor :=
  fold_left (product_step types iidx nbs) c (Ok (of_scalar 1)).

(** mtpBModule.cc:87: the product is stored in one number, which fails unless it has no
    dimensions left. *)
Definition basis_value (types : list Z) (iidx : Z) (nbs : list (Z * vec)) (c : list (nat * nat)) : result R :=
  bind (product_of types iidx nbs c) (fun t => if (rank t =? 0)%nat then Ok (at_ t []) else Err ValueError).
End Descriptor.
