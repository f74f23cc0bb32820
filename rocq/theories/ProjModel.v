(** Model of matersdk/io/pwmat/output/dostotalspin.py and fatabandstructureTxt.py: sums of
    projected densities of states and of band weights over elements.

    [pandas.read_csv] is modelled for tables in which every row has as many fields as the
    heading (anything else is [ValueError] here); headings that occur twice, which pandas
    numbers, keep their text. Numbers are reals and [float] of a token is an arbitrary
    reader. The order in which a Python set of strings is enumerated is an argument. *)
From Coq Require Import String Reals.
From Verif Require Import Base Text MovementModel.
Local Open Scope string_scope.
Local Open Scope list_scope.
Local Open Scope R_scope.

Record frame : Type := { names : list string; body : list (list R) }.

Section Reading.
Variable float_of : string -> result R.
(** [list(set(l))] *)
Variable set_order : list string -> list string.

(** [pd.read_csv(..., delimiter='\s+')] on lines already split: blank lines are skipped, the
    first other line is the heading. *)
Definition read_csv (lines : list (list string)) : result frame :=
  match filter (fun l => match l with [] => false | _ => true end) lines with
  | [] => Err ValueError
  | head :: rows =>
      bind (mapM (fun r => if (length r =? length head)%nat then mapM float_of r else Err ValueError) rows) (fun b =>
      Ok {| names := head; body := b |})
  end.

(** [list.remove(x)] without the exception *)
Fixpoint drop_first (x : string) (l : list string) : list string :=
  match l with
  | [] => []
  | y :: r => if String.eqb x y then r else y :: drop_first x r
  end.

(** The position of a column, [df.loc[:, name]]. *)
Fixpoint column (l : list string) (name : string) : result nat :=
  match l with
  | [] => Err KeyError
  | n :: r => if String.eqb name n then Ok O else bind (column r name) (fun i => Ok (S i))
  end.
(** [df.loc[:, [a, b]]] *)
Definition columns (f : frame) (ns : list string) : result frame :=
  bind (mapM (column (names f)) ns) (fun is =>
  bind (mapM (fun row => mapM (get row) is) (body f)) (fun b => Ok {| names := ns; body := b |})).
(** [df.drop(labels=[name], axis=1)] *)
Definition drop_column (f : frame) (name : string) : result frame :=
  bind (column (names f) name) (fun i =>
  Ok {| names := firstn i (names f) ++ skipn (S i) (names f);
        body := map (fun row => firstn i row ++ skipn (S i) row) (body f) |}).

Definition add_up (l : list R) : R := fold_right Rplus 0 l.
(** [df.loc[:, mask].sum(axis=1)], one row *)
Definition masked_sum (keep : string -> bool) (ns : list string) (row : list R) : R :=
  add_up (map snd (filter (fun p => keep (fst p)) (combine ns row))).

(** [s.split('-')[0]] *)
Definition element_of (s : string) : string := hd "" (split_on "-"%char s).

(** ** dostotalspin.py *)

(** dostotalspin.py:28-53: the heading without the token ["#"], read back. *)
Definition open_dos (lines : list string) : result frame :=
  match lines with
  | [] => Err IndexError
  | l :: r => read_csv (drop_first "#" (split_ws l) :: map split_ws r)
  end.

(** dostotalspin.py:57-77 *)
Definition get_tdos (f : frame) : result frame :=
  match columns f ["Energy"; "Total"] with
  | Err KeyError => columns f ["Energy"; "total"]
  | r => r
  end.

(** dostotalspin.py:80-128 *)
Definition get_pdos_elements (f : frame) : result frame :=
  let els := set_order (map element_of (skipn 2 (names f))) in
  bind (column (names f) "Energy") (fun i =>
  bind (mapM (fun row => bind (get row i) (fun e =>
         Ok (e :: map (fun el => masked_sum (starts_with el) (names f) row) els))) (body f)) (fun b =>
  Ok {| names := "Energy" :: els; body := b |})).

(** dostotalspin.py:131-156 *)
Definition get_pdos_orbitals (f : frame) : result frame :=
  match drop_column f "Total" with
  | Err KeyError => drop_column f "total"
  | r => r
  end.

(** ** fatabandstructureTxt.py *)

(** fatabandstructureTxt.py:22, 118: the column of distances is divided by a constant. *)
Definition bohr : R := 529177249 / 1000000000.
Fixpoint map_nth {A} (g : A -> A) (i : nat) (l : list A) : list A :=
  match l, i with
  | [], _ => []
  | x :: r, O => g x :: r
  | x :: r, S j => x :: map_nth g j r
  end.

(** fatabandstructureTxt.py:90-120 *)
Definition fat_frame (lines : list string) : result frame :=
  bind (read_csv (map split_ws (filter (fun l => negb (contains "BAND" l)) lines))) (fun f =>
  bind (column (names f) "KPOINT") (fun i =>
  Ok {| names := names f; body := map (map_nth (fun x => x / bohr) i) (body f) |})).

(** fatabandstructureTxt.py:73-87; [list.remove] raises [ValueError]. *)
Definition remove_name (x : string) (l : list string) : result (list string) :=
  if existsb (String.eqb x) l then Ok (drop_first x l) else Err ValueError.
Definition fat_elements (f : frame) : result (list string) :=
  bind (remove_name "KPOINT" (names f)) (fun l =>
  bind (remove_name "ENERGY" l) (fun l =>
  bind (remove_name "weight_tot" l) (fun l => Ok (set_order (map element_of l))))).

Record fatband : Type := { fat_lines : list string; num_bands : nat; num_kpoints : Z; elements : list string }.

(** fatabandstructureTxt.py:24-57 *)
Definition fat_open (lines : list string) : result fatband :=
  let idx := locate_lines_from 0 "BAND" lines in
  bind (get idx 1) (fun b => bind (get idx 0) (fun a =>
  bind (fat_frame lines) (fun f => bind (fat_elements f) (fun els =>
  Ok {| fat_lines := lines; num_bands := length idx;
        num_kpoints := (Z.of_nat b - Z.of_nat a - 2)%Z; elements := els |})))).

(** [np.array_split(rows, k)]: the first [len mod k] pieces are one longer. *)
Fixpoint cut {A} (sizes : list nat) (l : list A) : list (list A) :=
  match sizes with
  | [] => []
  | s :: r => firstn s l :: cut r (skipn s l)
  end.
Definition array_split {A} (l : list A) (k : nat) : result (list (list A)) :=
  match k with
  | O => Err ValueError
  | _ => let q := (length l / k)%nat in let r := (length l mod k)%nat in
         Ok (cut (repeat (S q) r ++ repeat q (k - r)) l)
  end.

(** fatabandstructureTxt.py:123-141 *)
Definition total_dfs (b : fatband) : result (list string * list (list (list R))) :=
  bind (fat_frame (fat_lines b)) (fun f =>
  bind (array_split (body f) (num_bands b)) (fun l => Ok (names f, l))).

(** fatabandstructureTxt.py:144-179: the regular expression [^element] is tried on every
    column. *)
Definition element_dfs (b : fatband) : result (list string * list (list (list R))) :=
  bind (fat_frame (fat_lines b)) (fun f =>
  bind (columns f ["KPOINT"; "ENERGY"; "weight_tot"]) (fun h =>
  let sums row := map (fun el => masked_sum (starts_with el) (names f) row) (elements b) in
  let rows := map (fun p => fst p ++ sums (snd p)) (combine (body h) (body f)) in
  bind (array_split rows (num_bands b)) (fun l =>
  Ok (["KPOINT"; "ENERGY"; "weight_tot"] ++ elements b, l)))).

(** fatabandstructureTxt.py:182-201, for a name without special characters of regular
    expressions: the columns in which it occurs anywhere, in either case. *)
Definition orbital_column (orbital : string) (n : string) : bool :=
  existsb (fun w => contains (upper w) (upper n)) [orbital; "KPOINT"; "ENERGY"; "weight_tot"].
Definition orbital_dfs (b : fatband) (orbital : string) : result (list string * list (list (list R))) :=
  bind (fat_frame (fat_lines b)) (fun f =>
  let keep row := map snd (filter (fun p => orbital_column orbital (fst p)) (combine (names f) row)) in
  bind (array_split (map keep (body f)) (num_bands b)) (fun l =>
  Ok (filter (orbital_column orbital) (names f), l))).
End Reading.
