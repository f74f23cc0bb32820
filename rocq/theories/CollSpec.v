(** Independent vocabulary for the counts of a collection and for directories. *)
From Coq Require Import String.
From Verif Require Import Arr Vec StructModel StructSpec SiteIndexModel NeighModel NeighSpec CollModel.
Open Scope nat_scope.

(** [sup] are the atoms of the supercell of a frame and [centres] the places of its own sites. *)
Definition frame_atoms (f : frame) (s0 s1 s2 : Z) (sup : list (Z * vec)) (centres : list nat) : Prop :=
  make_supercell_ vec (translate_R (fr_a f) (fr_b f) (fr_c f)) s0 s1 s2 true (fr_sites f) = Ok sup /\
  map (nth_error sup) centres = map Some (reformat_elements_ vec (fr_sites f)).
(** [n] is the largest number of good atoms around a site of the frame. *)
Definition frame_number (good : list (Z * vec) -> nat -> nat -> Z * vec -> Prop) (s0 s1 s2 : Z) (f : frame) (n : nat) : Prop :=
  exists sup centres, frame_atoms f s0 s1 s2 sup centres /\ largest_number (good sup) sup centres n.
(** [m] is the largest such number of all frames. *)
Definition largest_of_frames (good : list (Z * vec) -> nat -> nat -> Z * vec -> Prop) (s0 s1 s2 : Z) (frames : list frame) (m : nat) : Prop :=
  (forall f, In f frames -> exists n, frame_number good s0 s1 s2 f n /\ n <= m) /\
  (exists f, In f frames /\ frame_number good s0 s1 s2 f m).
(** Atoms closer than the cutoff; those of one element other than the centre. *)
Definition closer (rcut : R) (sup : list (Z * vec)) : nat -> nat -> Z * vec -> Prop := strict_near vdist Rleb sup rcut.
Definition closer_element (z : Z) (rcut : R) (sup : list (Z * vec)) : nat -> nat -> Z * vec -> Prop := of_element z (strict_near vdist Rleb sup rcut).

(** A frame with a cell of nonzero volume and no two sites that are lattice images of each other. *)
Definition regular (f : frame) : Prop :=
  det (fr_a f) (fr_b f) (fr_c f) <> 0%R /\ distinct_sites (fr_a f) (fr_b f) (fr_c f) (map snd (fr_sites f)).
(** No atom of the supercell is exactly at the cutoff from a site. *)
Definition none_on_cutoff (rcut : R) (s0 s1 s2 : Z) (f : frame) : Prop :=
  forall sup centres c cen a, frame_atoms f s0 s1 s2 sup centres -> In c centres -> nth_error sup c = Some cen -> In a sup ->
  vdist (snd a) (snd cen) <> rcut.

(** Every entry of [old] with another name is in [new], unchanged and in the same order, and the
    entry [name] of [new] is an empty folder. *)
Definition emptied (old new : listing) (name : string) : Prop :=
  exists others, new = others ++ [(name, Folder [])] /\ ~ In name (map fst others) /\
  forall k, k <> name -> filter (fun e => String.eqb (fst e) k) others = filter (fun e => String.eqb (fst e) k) old.
