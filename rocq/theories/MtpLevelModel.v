(** Model of the enumeration of moment combinations of the moment tensor
    potential: source/descriptor/mtp/src/mtpLevel.cc, and of the dimension
    bookkeeping in source/descriptor/mtp/src/mtpBModule.cc.

    [int] is an unbounded number here; overflow is not modelled.  The missing
    [return] of the assignment operators (mtpLevel.cc:44-48, 96-100), which is
    undefined behaviour in C++, is not modelled either: assignment copies. *)
From Verif Require Export Base.

(** mtpLevel.cc:13-30, class MtpMCoeffPair: the pair (mu, nu).  The level is
    recomputed from the pair by every constructor, so it is not stored here. *)
Notation moment := (prod nat nat).
Notation comb := (list (prod nat nat)).

(** mtpLevel.cc:50-53, [_calc_level]. *)
Definition calc_level (mu nu : nat) : nat := 2 + 4 * mu + nu.

Section Enumeration.

(** [std::sort] with CoeffPairSortFunction (mtpLevel.cc:66-71, 134): any sorting
    function; what it guarantees is stated in the specification. *)
Variable sort : comb -> comb.

(** mtpLevel.cc:110-142, [get_all_schemes4lev].  The recursion of the code goes
    down by at least two; [fuel] stands for it and is supplied in full below.
    The starting indices are natural numbers (the code only passes such). *)
Fixpoint schemes (fuel aim_level start_mu start_nu : nat) : list comb :=
  match fuel with
  | O => []
  | S fuel' =>
      if aim_level =? 0 then [[]]
      else
        flat_map (fun mu =>
          flat_map (fun nu =>
            if calc_level mu nu <? calc_level start_mu start_nu then []
            else if calc_level mu nu <=? aim_level
            then map (fun c => sort (c ++ [(mu, nu)]))
                     (schemes fuel' (aim_level - calc_level mu nu) mu nu)
            else [])
          (seq 0 aim_level))
        (seq 0 aim_level)
  end.

Definition get_all_schemes4lev (aim_level start_mu start_nu : nat) : list comb :=
  schemes (S aim_level) aim_level start_mu start_nu.

(** mtpLevel.cc:173-181: the map from nu to how often it occurs. *)
Definition nu_count (n : nat) (c : comb) : nat :=
  length (filter (fun p => snd p =? n) c).

(** mtpLevel.cc:144-188, the test of [get_contracted_combs] for one combination:
    size 0 is skipped, size 1 needs nu = 0, otherwise mark1 || mark2. *)
Definition is_kept (c : comb) : bool :=
  match c with
  | [] => false
  | [p] => snd p =? 0
  | p :: rest =>
      (fold_left Nat.add (map snd rest) 0 =? snd p)
      || forallb (fun q => (snd q =? 0) || Nat.even (nu_count (snd q) c)) c
  end.

Definition get_contracted_combs (cs : list comb) : list comb := filter is_kept cs.

(** mtpLevel.cc:190-199, [_build]: levels 0 .. max_level. *)
Definition build_combs (max_level : Z) : list comb :=
  flat_map (fun ii => get_contracted_combs (get_all_schemes4lev ii 0 0))
           (seq 0 (Z.to_nat (max_level + 1))).

(** mtpLevel.cc:221-229, [nmus_check]: the number of different mu. *)
Definition nmus_check (max_level : Z) : nat :=
  length (nodup Nat.eq_dec (flat_map (map fst) (build_combs max_level))).

End Enumeration.

(** mtpLevel.cc:216-219, [nmus]: the division is on integers, truncating towards
    zero, so [std::ceil] has nothing left to do. *)
Definition nmus (max_level : Z) : Z := (Z.quot (max_level - 2) 4 + 1)%Z.

(** mtpBModule.cc:57-86: number of dimensions of the partial product while the
    moments of a combination are multiplied in.  A moment (mu, nu) has nu
    dimensions (mtpMModule.cc:50-55, 70).  When the partial product has at least
    as many dimensions, the last nu are summed over; otherwise the assertion of
    line 83 demands a scalar. *)
Definition contract_step (dim1 : result nat) (dim2 : nat) : result nat :=
  bind dim1 (fun d => if dim2 <=? d then Ok (d - dim2) else if d =? 0 then Ok dim2 else Err AssertionError).

Definition contract_dims (c : comb) : result nat :=
  fold_left contract_step (map snd c) (Ok 0).
