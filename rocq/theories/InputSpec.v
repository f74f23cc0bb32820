(** Two input files of PWmat: what a reader of the file sees, stated without the code that writes it. *)
From Verif Require Import InputModel.
Local Open Scope string_scope.
Local Open Scope list_scope.

(** What is left of a line without its comment. *)
Fixpoint before_hash (s : string) : string :=
  match s with "" => "" | String c r => if Ascii.eqb c "#" then "" else String c (before_hash r) end.
(** A reader takes the words of each line up to the comment. *)
Definition data_lines (content : string) : list (list string) := map (fun l => split_ws (before_hash l)) (file_lines content).
(** A text that such a reader takes as one word. *)
Definition word (t : string) : Prop := t <> "" /\ forall a c b, t = a +++ String c b -> is_space c = false /\ c <> "#"%char.

(** The grid an object shows. *)
Definition grid_of {V} (s : state V) (d : nat) : option (list V) :=
  match nth_error (doses V s) d with Some o => nth_error (lists V s) (d_grid V o) | None => None end.
(** Two objects hold the same list. *)
Definition same_list {V} (s : state V) (d e : nat) : Prop :=
  exists o p, nth_error (doses V s) d = Some o /\ nth_error (doses V s) e = Some p /\ d_grid V o = d_grid V p.
(** Two lists that differ at most in one place, where the second has [v]. *)
Definition changed_at {V} (l : list V) (i : nat) (v : V) (m : list V) : Prop :=
  i < List.length l /\ forall j, nth_error m j = if Nat.eqb i j then Some v else nth_error l j.
(** The number of details each type of potential needs (gen_vext.py:37-50). *)
Definition needed (t : Z) : nat := if (t =? 1)%Z then 3 else if (t =? 2)%Z then 6 else 2.
(** Nothing but the file [path] differs. *)
Definition rest_same {V} (s s' : state V) (path : string) : Prop :=
  lists V s' = lists V s /\ doses V s' = doses V s /\ vexts V s' = vexts V s /\
  forall q, q <> path -> read_file (files V s') q = read_file (files V s) q.
(** [t] is [s] filled with spaces on the right up to [w] characters. *)
Definition padded (w : nat) (s t : string) : Prop :=
  exists r, t = s +++ r /\ (forall a c b, r = a +++ String c b -> c = " "%char) /\ String.length t = Nat.max w (String.length s).
