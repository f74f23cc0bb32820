(** Specifications for projected densities of states and band weights. *)
From Coq Require Import String Reals List Permutation.
From Verif Require Import Text.
Import ListNotations.
Local Open Scope string_scope.
Local Open Scope list_scope.
Local Open Scope R_scope.

(** The column [n] belongs to the element [e]: it is the name of the element, or that name,
    a dash and the name of an orbital. *)
Definition no_dash (e : string) : Prop := forall a b, e <> String.append a (String "-" b).
Definition belongs (n e : string) : Prop :=
  no_dash e /\ (n = e \/ exists o, n = String.append e (String "-" o)).
(** [n] begins with [e]. *)
Definition begins (n e : string) : Prop := exists t, n = String.append e t.

(** [s] is the sum of the entries of [row] under the headings that satisfy [P]. *)
Inductive sum_where (P : string -> Prop) : list string -> list R -> R -> Prop :=
| sum_nil : sum_where P [] [] 0
| sum_yes n ns x xs s : P n -> sum_where P ns xs s -> sum_where P (n :: ns) (x :: xs) (x + s)
| sum_no n ns x xs s : ~ P n -> sum_where P ns xs s -> sum_where P (n :: ns) (x :: xs) s.

(** [x] is the entry of [row] under the first heading [n]. *)
Definition entry_under (n : string) (ns : list string) (row : list R) (x : R) : Prop :=
  exists a b u v, ns = a ++ n :: b /\ ~ In n a /\ row = u ++ x :: v /\ length u = length a.

(** No heading begins with the name of one of the elements without belonging to it. *)
Definition separated (els ns : list string) : Prop :=
  forall e n, In e els -> In n ns -> begins n e -> belongs n e.

(** [set_order] lists every string of a list once. *)
Definition enumerates (set_order : list string -> list string) : Prop :=
  forall l, NoDup (set_order l) /\ forall x, In x (set_order l) <-> In x l.

(** [t] occurs in [n] up to the case of letters. *)
Definition occurs_in (t n : string) : Prop :=
  exists a u b, n = String.append a (String.append u b) /\ upper u = upper t.

(** The heading under which a table keeps the total density. *)
Definition total_name (ns : list string) (t : string) : Prop := (t = "Total" /\ In "Total" ns) \/ (t = "total" /\ ~ In "Total" ns /\ In "total" ns).

(** The three headings of a table of band weights that are no orbitals. *)
Definition head3 : list string := ["KPOINT"; "ENERGY"; "weight_tot"].

(** ** Files of band weights *)

Definition blank (l : string) : Prop := split_ws l = [].
Definition plain (l : string) : Prop := contains "BAND" (upper l) = false /\ contains "BAND" l = false.
Definition title (l : string) : Prop := contains "BAND" (upper l) = true /\ contains "BAND" l = true.

(** A band: its title, its rows, the blank lines after it. *)
Record bandtext : Type := { b_title : string; b_rows : list string; b_blank : list string }.
Definition band_lines (b : bandtext) : list string := b_title b :: b_rows b ++ b_blank b.
Definition band_ok (b : bandtext) : Prop :=
  title (b_title b) /\ (forall l, In l (b_rows b) -> plain l /\ ~ blank l) /\ (forall l, In l (b_blank b) -> plain l /\ blank l).
Definition file (head : string) (bands : list bandtext) : list string := head :: concat (map band_lines bands).


(** [ns'], [row'] are the headings that satisfy [P] and the entries under them. *)
Inductive picks (P : string -> Prop) : list string -> list R -> list string -> list R -> Prop :=
| picks_nil : picks P [] [] [] []
| picks_yes n ns x xs ns' xs' : P n -> picks P ns xs ns' xs' -> picks P (n :: ns) (x :: xs) (n :: ns') (x :: xs')
| picks_no n ns x xs ns' xs' : ~ P n -> picks P ns xs ns' xs' -> picks P (n :: ns) (x :: xs) ns' xs'.
