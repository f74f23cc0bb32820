(** Vocabulary for the data-set properties: splitting a list of frames into
    numbered pieces, selecting frames, and grouping files by composition. *)
From Coq Require Import String.
From Verif Require Import Base ElementModel DataModel.

(** [ps] are consecutive non-empty pieces of [l], all but the last of length [s]. *)
Definition pieces {A} (l : list A) (s : nat) (ps : list (list A)) : Prop :=
  concat ps = l /\ Forall (fun p => p <> [] /\ length p <= s) ps /\
  forall i p, S i < length ps -> nth_error ps i = Some p -> length p = s.

(** The content of the file [k] of a directory. *)
Fixpoint file {A} (k : string) (fs : list (string * A)) : option A :=
  match fs with [] => None | (n, a) :: r => if String.eqb n k then Some a else file k r end.

(** A text file with one entry per line. *)
Definition each_line (l : list string) : string := fold_right (fun s r => (s ++ newline ++ r)%string) EmptyString l.

(** The subdirectories with arrays. *)
Definition set_dirs {F} (d : list (@entry F)) : list (string * list (string * list (list F))) :=
  flat_map (fun e => match e with SetDir n f => [(n, f)] | Text _ _ => [] end) d.
(** The text files. *)
Definition texts {F} (d : list (@entry F)) : list (string * string) :=
  flat_map (fun e => match e with SetDir _ _ => [] | Text n t => [(n, t)] end) d.

(** The files [k] of the directories, in order, hold the rows in pieces of [s]. *)
Definition holds {A} (dirs : list (string * list (string * list A))) (k : string) (rows : list A) (s : nat) : Prop :=
  exists ps, map (fun d => file k (snd d)) dirs = map Some ps /\ pieces rows s ps.
Definition lacks {A} (dirs : list (string * list (string * list A))) (k : string) : Prop :=
  Forall (fun d => file k (snd d) = None) dirs.

(** All lists have the same length. *)
Definition equal_lengths {A} (l : list (list A)) : Prop := forall x y, In x l -> In y l -> length x = length y.

(** The data of a collection belong together: one total energy and one virial per
    structure, and structures of equal size. *)
Definition consistent {F} (structs : list (@struct F)) (tot : list F) (vir : list (list F)) : Prop :=
  length tot = length structs /\ length vir = length structs /\ equal_lengths vir /\
  equal_lengths (map st_box structs) /\ equal_lengths (map (fun s => concat (st_coords s)) structs) /\
  equal_lengths (map (fun s => concat (st_forces s)) structs) /\ equal_lengths (map st_energies structs).

(** The entry a Python index refers to. *)
Definition refers {A} (l : list A) (i : Z) (x : A) : Prop :=
  (-Z.of_nat (length l) <= i < Z.of_nat (length l))%Z /\
  nth_error l (Z.to_nat (if (i <? 0)%Z then i + Z.of_nat (length l) else i)) = Some x.

(** [xs] without repetitions, in order of first appearance. *)
Fixpoint distinct {A} (same : A -> A -> bool) (l : list A) : list A :=
  match l with [] => [] | x :: r => x :: filter (fun y => negb (same x y)) (distinct same r) end.

(** ** What a data file contains *)
Section File.
Context {F : Type}.
Variable an : F -> Z.

Definition array (m : @raw F) (k : nat) : list (list F) := nth k (r_info m) [].
(** Atomic numbers, frame by frame, and those of the first frame. *)
Definition numbers (m : raw) : list (list Z) := map (map an) (array m 1).
Definition head_numbers (m : raw) : list Z := nth 0 (numbers m) [].
Definition frames (m : raw) : nat := length (array m 0).

(** Where the optional arrays are. *)
Definition virial_of (m : @raw F) : option (list (list F)) := if r_virial m then Some (array m 5) else None.
Definition eatom_of (m : @raw F) : option (list (list F)) :=
  if r_eatom m then Some (array m (5 + (if r_virial m then 1 else 0))) else None.
Definition magmom_of (m : @raw F) : option (list (list F)) :=
  if r_magmom m then Some (array m (5 + (if r_virial m then 1 else 0) + (if r_eatom m then 1 else 0))) else None.

(** What the extractor guarantees: at least one frame, all arrays present with one
    row per frame, [n] atoms in every frame. *)
Definition shaped (m : raw) : Prop := exists n, 0 < frames m /\
  Forall2 (fun a w => length a = frames m /\ Forall (fun r => length r = w) a) (r_info m)
    ([9; n; 3 * n; 1; 3 * n] ++ (if r_virial m then [9] else []) ++ (if r_eatom m then [n] else []) ++ (if r_magmom m then [n] else [])).

(** All atoms are known elements, and no element appears after the first frame only. *)
Definition closed (m : raw) : Prop :=
  forall t a, In t (numbers m) -> In a t -> (0 <= a <= 118)%Z /\ In a (head_numbers m).

(** The same number of atoms of every element in the first frame. *)
Definition same_composition (m m' : raw) : bool :=
  forallb (fun a => length (filter (Z.eqb a) (head_numbers m)) =? length (filter (Z.eqb a) (head_numbers m')))
    (head_numbers m ++ head_numbers m').

(** Data present in every file, one after another. *)
Definition joined (l : list (option (list (list F)))) (o : option (list (list F))) : Prop :=
  match o with
  | Some a => exists ls, l = map Some ls /\ a = concat ls
  | None => In None l
  end.

(** [s] contains the frames of the files [ms], in order; [keys] names the elements. *)
Definition contains_files (keys : list string) (ms : list raw) (s : @infoset F) : Prop :=
  is_box s = concat (map (fun m => array m 0) ms) /\
  is_coord s = concat (map (fun m => array m 2) ms) /\
  is_etot s = concat (map (fun m => array m 3) ms) /\
  is_fatom s = concat (map (fun m => array m 4) ms) /\
  Forall2 (Forall2 (fun i a => exists k, nth_error keys i = Some k /\ symbol_of a = Ok k))
    (is_types s) (concat (map numbers ms)) /\
  is_frames s = list_sum (map frames ms) /\
  joined (map virial_of ms) (is_virial s) /\ joined (map eatom_of ms) (is_eatom s) /\ joined (map magmom_of ms) (is_magmom s).

(** All arrays of a set have one row per frame. *)
Definition whole (s : @infoset F) : Prop :=
  let ok {A} (l : list A) := length l = is_frames s in
  let oko {A} (o : option (list A)) := match o with Some l => length l = is_frames s | None => True end in
  ok (is_box s) /\ ok (is_types s) /\ ok (is_coord s) /\ ok (is_etot s) /\ ok (is_fatom s) /\
  oko (is_virial s) /\ oko (is_eatom s) /\ oko (is_magmom s).

(** The arrays of numbers, and the type indices, of the part directories. *)
Definition num_parts (k : string) (d : list (string * list (string * @narray F))) : list (option (list (list F))) :=
  map (fun p => match file k (snd p) with Some (Nums a) => Some a | _ => None end) d.
Definition int_parts (k : string) (d : list (string * list (string * @narray F))) : list (option (list (list nat))) :=
  map (fun p => match file k (snd p) with Some (Ints a) => Some a | _ => None end) d.

Definition held_opt (d : list (string * list (string * @narray F))) (k : string) (o : option (list (list F))) (p : nat) : Prop :=
  match o with
  | Some l => exists ps, num_parts k d = map Some ps /\ pieces l p ps
  | None => Forall (fun x => file k (snd x) = None) d
  end.
(** The part directories hold the set in pieces of [p]. *)
Definition holds_set (d : list (string * list (string * @narray F))) (s : infoset) (p : nat) : Prop :=
  held_opt d "box.npy" (Some (is_box s)) p /\ held_opt d "coord.npy" (Some (is_coord s)) p /\
  held_opt d "etot.npy" (Some (is_etot s)) p /\ held_opt d "fatom.npy" (Some (is_fatom s)) p /\
  (exists ps, int_parts "types.npy" d = map Some ps /\ pieces (is_types s) p ps) /\
  held_opt d "virial.npy" (is_virial s) p /\ held_opt d "eatom.npy" (is_eatom s) p /\ held_opt d "magmoms.npy" (is_magmom s) p.
End File.

(** The position a bound of a Python slice stands for in a list of [n] entries: a negative one is
    counted from the end; beyond either end it is that end. *)
Definition position (n : nat) (a : Z) (p : nat) : Prop :=
  p <= n /\ ((0 <= a)%Z -> Z.of_nat p = a \/ (p = n /\ (Z.of_nat n < a)%Z)) /\ ((a < 0)%Z -> Z.of_nat p = (a + Z.of_nat n)%Z \/ (p = 0 /\ (a + Z.of_nat n < 0)%Z)).
(** The entries between two bounds. *)
Definition sliced {A} (a b : Z) (l part : list A) : Prop :=
  exists p q, position (length l) a p /\ position (length l) b q /\
  if p <=? q then exists pre post, l = pre ++ part ++ post /\ length pre = p /\ length (pre ++ part) = q else part = [].

(** The decimal digits of a number below a thousand. *)
Definition digit (n : nat) : Ascii.ascii := Ascii.ascii_of_nat (48 + n).
Definition three_digits (n : nat) : string := String (digit (n / 100)) (String (digit (n / 10 mod 10)) (String (digit (n mod 10)) EmptyString)).
