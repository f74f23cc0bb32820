(** Property C58: aligned arrays. *)
From Verif Require Import AlignModel AlignSpec AlignProofs.
Open Scope Z_scope.

(** ** C58 *)

(** The data address computed from any block address is a multiple of 16, not before the
    block, and at most 15 bytes into it. *)
Theorem C58_address : forall x, aligned x mod 16 = 0 /\ x <= aligned x <= x + 15.
Proof. exact aligned_spec. Qed.
Print Assumptions C58_address.

Example C58_address_case : aligned 1001 = 1008 /\ aligned 1008 = 1008.
Proof. exact (conj eq_refl eq_refl). Qed.

(** Every program of constructions, resizes and destructions whose allocations succeed runs
    without a memory error; every array then has the size asked for, starts at a multiple of
    16, has all its elements in memory in use, and shares none with another array; when all
    arrays are destroyed everything is released. *)
Theorem C58_programs :
  forall l, ausable_all astart no_shape l -> exists w, arun astart l = HOk w /\ aligned_arrays w (ameaning_of no_shape l) /\
  ((forall i, ameaning_of no_shape l i = None) -> all_released w).
Proof. exact aprograms. Qed.
Print Assumptions C58_programs.

Example C58_programs_case : ausable_all astart no_shape ex_aprog.
Proof. exact ex_aprog_usable. Qed.
Example C58_programs_result : exists w, arun astart ex_aprog = HOk w /\ size_of w 0 = HOk 3 /\ element_address w 0 0 = HOk 3008 /\ element_address w 1 0 = HOk 2000 /\
  snd w = [(1001, 95, false); (2000, 39, true); (3007, 39, true)].
Proof. exact ex_aprog_result. Qed.

(** The compiler's copy shares the block: destroying both copies releases it twice. *)
Theorem C58_copy_breaks :
  forall w i j n, areachable w -> size_of w i = HErr NoObject -> size_of w j = HOk n -> 0 < n ->
  arun w [ACopy i j; ADestroy i; ADestroy j] = HErr DoubleFree.
Proof. exact copy_breaks. Qed.
Print Assumptions C58_copy_breaks.

(** A constructor whose allocation throws, as it does for a negative size, leaves no array and no
    memory behind. *)
Theorem C58_failed_construction : forall w i s n addr, addr = None \/ n < 0 -> astep w (ANewSize i s n addr) = HOk w.
Proof. exact failed_construction. Qed.
Print Assumptions C58_failed_construction.

(** When the allocation of a resize throws, the array claims the new size but has already
    released its memory, and its destructor releases it again. *)
Theorem C58_failed_resize_breaks :
  forall w i n m, areachable w -> size_of w i = HOk n -> 0 < n -> m <> n ->
  exists w', astep w (AResize i m None) = HOk w' /\ size_of w' i = HOk m /\ astep w' (ADestroy i) = HErr DoubleFree.
Proof. exact failed_resize_breaks. Qed.
Print Assumptions C58_failed_resize_breaks.

Example C58_breaks_case : exists w, areachable w /\ size_of w 0 = HOk 3 /\ size_of w 7 = HErr NoObject.
Proof. exact ex_areach. Qed.
