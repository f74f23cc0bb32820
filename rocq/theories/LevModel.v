(** Model of source/descriptor/mtp/include/level.h: the enumeration of all
    sequences of moments up to a level, the removal of duplicated and of not
    contractible ones, and the arrangement by level.

    [int] is an unbounded natural number here (negative levels and overflow are
    not modelled); reading outside a [std::vector] is [Err IndexError]. *)
From Verif Require Export Base.

(** A moment (mju, nju), and a combination of moments. *)
Notation moment := (prod nat nat).
Notation comb := (list (prod nat nat)).

(** level.h:288-290, [Combinations::get_level] *)
Definition get_level (mju nju : nat) : nat := 2 + 4 * mju + nju.

(** level.h:301-309, [get_max_num_M]: the number of rounds of the loop; the level grows by two in
    each, so [max_level] rounds are enough. *)
Fixpoint count_M (fuel current_level max_level : nat) : nat :=
  match fuel with
  | 0 => 0
  | S fuel => if current_level <? max_level then S (count_M fuel (current_level + 2) max_level) else 0
  end.
Definition get_max_num_M (max_level : nat) : nat := count_M max_level 0 max_level.

(** level.h:317-341, [calc_redundant_combination]: what is appended to the list of the object. *)
Fixpoint calc_redundant_combination (num_M max_level level : nat) (combination : comb) : list comb :=
  match num_M with
  | 0 => if level <=? max_level then [combination] else []
  | S num_M =>
      flat_map (fun tmp_mju => flat_map (fun tmp_nju =>
        let new_level := level + get_level tmp_mju tmp_nju in
        if new_level <=? max_level then calc_redundant_combination num_M max_level new_level (combination ++ [(tmp_mju, tmp_nju)]) else [])
        (seq 0 (max_level + 2))) (seq 0 (max_level + 2))
  end.

(** level.h:292-297, 344-356: a new object for [max_level], then [calc_redundant_combinations] with the same level. *)
Definition calc_redundant_combinations (max_level : nat) : list comb :=
  flat_map (fun ii => calc_redundant_combination ii max_level 0 []) (seq 0 (get_max_num_M max_level)).

(** level.h:168-189, [remove_duplicates].  [size() - 1] of an empty combination wraps around, so
    the first round of the loop already reads outside. *)
Definition keep_copies (c : comb) : result (list comb) :=
  match c with
  | [] => Err IndexError
  | _ =>
      bind (mapM (fun jj =>
        bind (get c jj) (fun f => bind (get c (jj + 1)) (fun b =>
        Ok (if get_level (fst f) (snd f) <=? get_level (fst b) (snd b) then [c] else [])))) (seq 0 (length c - 1)))
      (fun copies => Ok (concat copies))
  end.
Definition remove_duplicates (l : list comb) : result (list comb) :=
  bind (mapM keep_copies l) (fun kept => Ok (concat kept)).

(** level.h:235-237, [nju2num[nju]++] *)
Fixpoint increment (m : list (nat * nat)) (nju : nat) : list (nat * nat) :=
  match m with
  | [] => [(nju, 1)]
  | (k, n) :: m => if k =? nju then (k, n + 1) :: m else (k, n) :: increment m nju
  end.
(** level.h:196-256, [remove_cannot_contract] *)
Definition mark_contraction (c : comb) : bool :=
  forallb (fun kn => negb (negb (fst kn =? 0) && negb (snd kn mod 2 =? 0))) (fold_left increment (map snd c) []).
Definition remove_cannot_contract (l : list comb) : list comb := filter mark_contraction l.

(** level.h:141-161, the constructor *)
Definition combinations (l : list comb) (mark_tiny : bool) : result (list comb) :=
  if mark_tiny then bind (remove_duplicates l) (fun l => Ok (remove_cannot_contract l)) else Ok l.

(** level.h:48-67, the comparison: true if the first combination has the lower level *)
Definition sum_level (c : comb) : nat := fold_left (fun s p => s + get_level (fst p) (snd p)) c 0.
Definition sort_basis (l : list comb) (i j : nat) : result bool :=
  bind (get l i) (fun ci => bind (get l j) (fun cj => Ok (sum_level ci <? sum_level cj))).

(** level.h:82-96, [arrange]: the result is built with the default [mark_tiny=true]. *)
Definition arrange (l : list comb) (new_indices : list nat) : result (list comb) :=
  bind (mapM (fun ii => bind (get new_indices ii) (get l)) (seq 0 (length l))) (fun sorted => combinations sorted true).
