(** Vocabulary for the moment tensor descriptor values. *)
From Verif Require Export Vec ChebSpec.
Local Open Scope R_scope.

(** A linear map of space, by its rows. *)
Definition apply_map (q : vec * vec * vec) (r : vec) : vec :=
  (dot (fst (fst q)) r, dot (snd (fst q)) r, dot (snd q) r).
(** It keeps lengths: rotations, reflections and their products. *)
Definition keeps_length (q : vec * vec * vec) : Prop := forall r, norm2 (apply_map q r) = norm2 r.

(** Moving every neighbour. *)
Definition move (f : vec -> vec) (nbs : list (Z * vec)) : list (Z * vec) := map (fun nb => (fst nb, f (snd nb))) nbs.

(** Row [c] times the radial basis at distance [r], the polynomials being [V]. *)
Definition radial_sum (V : nat -> R -> R) (rcut rcut_smooth : R) (c : list R) (r : R) : R :=
  if Rlt_dec r rcut_smooth then 0 else if Rlt_dec r rcut then
    let u := (r - rcut_smooth) / (rcut - rcut_smooth) in
    (1 - 10 * u ^ 3 + 15 * u ^ 4 - 6 * u ^ 5) *
    weighted c (map (fun n => V n (to_unit rcut rcut_smooth r)) (seq 0 (length c)))
  else 0.

(** The coefficient rows laid out by radial function, centre species and neighbour species. *)
Definition coeff_table (row : nat -> nat -> nat -> list R) (nmus nt : nat) : list (list R) :=
  flat_map (fun mu => flat_map (fun zi => map (row mu zi) (seq 0 nt)) (seq 0 nt)) (seq 0 nmus).
(** Species and neighbours as the integers the code receives. *)
Definition species (types : list nat) : list Z := map Z.of_nat types.
Definition listed (nbs : list (nat * vec)) : list (Z * vec) := map (fun nb => (Z.of_nat (fst nb), snd nb)) nbs.
(** One unused entry of a neighbour row. *)
Definition padding : Z * vec := ((-1)%Z, (0, 0, 0)).

(** Sum and product over a list. *)
Definition sum_over {A} (f : A -> R) (l : list A) : R := fold_right Rplus 0 (map f l).
Definition prod_over {A} (f : A -> R) (l : list A) : R := fold_right Rmult 1 (map f l).

(** The value of the combination (mu, nu) :: rest, when the later ones use up the directions of
    the first: [w] is the radial factor. *)
Definition group_value (w : nat -> nat * vec -> R) (nbs : list (nat * vec)) (mu : nat) (rest : list (nat * nat)) : R :=
  sum_over (fun a => w mu a * prod_over (fun p => sum_over (fun b => w (fst p) b * dot (snd a) (snd b) ^ snd p) nbs) rest) nbs.

(** Species numbers below the number of species, neighbours that exist, coefficient rows as long
    as the radial basis. *)
Definition well_posed (size nmus nt : nat) (row : nat -> nat -> nat -> list R) (types : list nat) (i : nat) (nbs : list (nat * vec)) : Prop :=
  (forall mu zi zj, (mu < nmus)%nat -> (zi < nt)%nat -> (zj < nt)%nat -> length (row mu zi zj) = size) /\
  Forall (fun z => (z < nt)%nat) types /\ (i < length types)%nat /\ Forall (fun nb => (fst nb < length types)%nat) nbs.

(** The radial factor of a neighbour. *)
Definition factor (V : nat -> R -> R) (rcut rcut_smooth : R) (row : nat -> nat -> nat -> list R) (types : list nat) (i mu : nat) (nb : nat * vec) : R :=
  radial_sum V rcut rcut_smooth (row mu (nth i types 0%nat) (nth (fst nb) types 0%nat)) (sqrt (norm2 (snd nb))).

(** Directions left over by a sequence of contractions. *)
Inductive leaves : nat -> list nat -> nat -> Prop :=
| leaves_nil d : leaves d [] d
| leaves_use d n l r : (n <= d)%nat -> leaves (d - n) l r -> leaves d (n :: l) r
| leaves_new n l r : (0 < n)%nat -> leaves n l r -> leaves 0 (n :: l) r.
