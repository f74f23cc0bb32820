(** C107: the average bond lengths along a trajectory. *)
From Coq Require Import String.
From Verif Require Import Arr Vec StructSpec NeighModel NeighSpec NeighReal AvgModel AvgSpec AvgCases ElementModel CollModel CollCases SeriesModel SeriesSpec SeriesProofs SeriesCases.
Open Scope nat_scope.

(** One value for each frame, in order: the average length of all bonds of that frame between the
    two elements, nothing for a frame without such bonds.  Exchanging the elements changes nothing. *)
Theorem C107_series :
  forall argsort, sorts Rleb argsort -> forall (rcut : R) (s0 s1 s2 : Z), positive_odd s0 -> positive_odd s1 -> positive_odd s2 -> (0 <= rcut)%R ->
  forall e1 e2 a1 a2 cpus frames m c, number_of e1 = Ok a1 -> number_of e2 = Ok a2 -> (3 <= cpus)%Z -> frames <> [] ->
  Forall (proper rcut s0 s1 s2) frames ->
  exists l, get_frames_avg_bond argsort cpus frames e1 e2 rcut s0 s1 s2 m c = Ok l /\
    get_frames_avg_bond argsort cpus frames e2 e1 rcut s0 s1 s2 m c = Ok l /\ Forall2 (frame_average rcut a1 a2) frames l.
Proof. exact series_ok. Qed.
Print Assumptions C107_series.

(** Every value is positive and at most the cutoff. *)
Theorem C107_bounds : forall rcut a1 a2 f m, frame_average rcut a1 a2 f (Some m) -> (0 < m <= rcut)%R.
Proof. exact series_value_bounds. Qed.
Print Assumptions C107_bounds.

(** Unknown elements, an empty trajectory, fewer than three processors, and one frame that cannot be
    evaluated: an error, no partial series. *)
Theorem C107_refused : forall argsort cpus frames e1 e2 rcut s0 s1 s2 m c,
  let r := get_frames_avg_bond argsort cpus frames e1 e2 rcut s0 s1 s2 m c in
  ((forall n, number_of e1 <> Ok n) \/ (forall n, number_of e2 <> Ok n) -> r = Err KeyError) /\
  (forall a1 a2, number_of e1 = Ok a1 -> number_of e2 = Ok a2 -> frames = [] -> r = Err IndexError) /\
  (forall a1 a2, number_of e1 = Ok a1 -> number_of e2 = Ok a2 -> frames <> [] -> (cpus <= 2)%Z -> r = Err ValueError) /\
  (forall a1 a2 f e, number_of e1 = Ok a1 -> number_of e2 = Ok a2 -> In f frames -> frame_avg_bond argsort rcut s0 s1 s2 a1 a2 f = Err e -> exists e', r = Err e').
Proof. exact series_refused. Qed.
Print Assumptions C107_refused.

(** Asking for distances in fractional coordinates has no effect: in a cubic cell of edge 10 the bonds
    of lengths 1 and 9 still have the average 5, and not half a cell. *)
Theorem C107_options_refuted : forall argsort reformat_mark coords_are_cartesian, sorts Rleb argsort ->
  get_frames_avg_bond argsort 3 [cube_frame] "O" "H" 9 3 3 3 reformat_mark coords_are_cartesian = Ok [Some 5%R].
Proof. exact cube_series. Qed.
Print Assumptions C107_options_refuted.

Example C107_case : Forall (proper 9 3 3 3) [cube_frame; cube_frame] /\ number_of "O" = Ok 8%Z /\ number_of "H" = Ok 1%Z /\
  frame_average 9 8 1 cube_frame (Some 5%R) /\ number_of "Xx" = Err KeyError.
Proof.
  exact (conj (Forall_cons _ cube_proper (Forall_cons _ cube_proper (Forall_nil _))) (conj eq_refl (conj eq_refl (conj cube_average eq_refl)))).
Qed.
