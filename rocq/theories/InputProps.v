(** Two input files of PWmat: the properties. *)
From Verif Require Import InputModel InputSpec InputProofs.
Local Open Scope string_scope.
Local Open Scope list_scope.
Local Open Scope nat_scope.

(** ** C92 *)
(** When the width of the smearing can be written and the number of energies is an integer, the file
    written by [DosInput.to] reads back, without its comments, as the five lines of data of the
    object; no other file, list or object changes. *)
Theorem C92_dos_file {V} (show : V -> string) fixed digits six p d o path t z : let s := run V show fixed digits p (start V six) in
  (forall v, word (show v)) -> (forall v t, fixed v = Ok t -> word t) -> (forall z, word (digits z)) ->
  nth_error (doses V s) d = Some o -> fixed (d_smear V o) = Ok t -> d_energies V o = Whole V z ->
  exists g s' c, grid_of s d = Some g /\ step V show fixed digits (WriteDos V d path) s = (s', None) /\ rest_same s s' path /\ read_file (files V s') path = Some c /\
  data_lines c = [[show (d_atoms V o)]; [show (d_method V o)]; [t; digits z]; map show g; ["0"]].
Proof. exact (dos_written show fixed digits six p d o path t z). Qed.
Print Assumptions C92_dos_file.

(** The number of energies stands behind the width of the smearing, filled with spaces to ten
    characters. *)
Theorem C92_dos_columns {V} (show : V -> string) fixed digits six p d o path t z : let s := run V show fixed digits p (start V six) in
  nth_error (doses V s) d = Some o -> fixed (d_smear V o) = Ok t -> d_energies V o = Whole V z ->
  exists a f b, read_file (files V (fst (step V show fixed digits (WriteDos V d path) s))) path = Some (a +++ String nl (t +++ "  " +++ f +++ " #" +++ b)) /\ padded 10 (digits z) f.
Proof. exact (dos_count show fixed digits six p d o path t z). Qed.
Print Assumptions C92_dos_columns.

(** Otherwise there is an exception, and the file that stood there before is lost: what remains has
    two lines of data. *)
Theorem C92_dos_broken_file {V} (show : V -> string) fixed digits six p d o path : let s := run V show fixed digits p (start V six) in
  (forall v, word (show v)) ->
  nth_error (doses V s) d = Some o -> (exists e, fixed (d_smear V o) = Err e) \/ (exists v, d_energies V o = Other V v) ->
  exists s' e c, step V show fixed digits (WriteDos V d path) s = (s', Some e) /\ rest_same s s' path /\ read_file (files V s') path = Some c /\
  data_lines c = [[show (d_atoms V o)]; [show (d_method V o)]].
Proof. exact (dos_broken show fixed digits six p d o path). Qed.
Print Assumptions C92_dos_broken_file.

(** A change of one object's grid changes exactly the objects that hold the same list, in exactly
    that place. *)
Theorem C92_set_grid {V} (show : V -> string) fixed digits s d i v s' : step V show fixed digits (SetGrid V d i v) s = (s', None) ->
  doses V s' = doses V s /\ vexts V s' = vexts V s /\ files V s' = files V s /\
  forall e, (same_list s d e -> exists l m, grid_of s e = Some l /\ grid_of s' e = Some m /\ changed_at l i v m) /\ (~ same_list s d e -> grid_of s' e = grid_of s e).
Proof. exact (set_grid show fixed digits s d i v s'). Qed.
Print Assumptions C92_set_grid.
(** A place behind the end of the list is an IndexError, an object or a list that does not exist a
    NameError; nothing changes. *)
Theorem C92_nothing_there {V} (show : V -> string) fixed digits s :
  (forall d i v o l, nth_error (doses V s) d = Some o -> nth_error (lists V s) (d_grid V o) = Some l -> List.length l <= i -> step V show fixed digits (SetGrid V d i v) s = (s, Some IndexError)) /\
  (forall d c path i v, nth_error (doses V s) d = None -> c = WriteDos V d path \/ c = SetGrid V d i v -> step V show fixed digits c s = (s, Some NameError)) /\
  (forall x path, nth_error (vexts V s) x = None -> step V show fixed digits (WriteVext V x path) s = (s, Some NameError)) /\
  (forall r i v, nth_error (lists V s) r = None -> step V show fixed digits (SetList V r i v) s = (s, Some NameError) /\
    (forall a m e n, step V show fixed digits (NewDos V a m e n (Some r)) s = (s, Some NameError)) /\ forall t b l, step V show fixed digits (NewVext V r t b l) s = (s, Some NameError)).
Proof. exact (nothing_there show fixed digits s). Qed.
Print Assumptions C92_nothing_there.

(** Two objects made without a grid show the same grid at the end of every program, whatever is
    done before, between and after. *)
Theorem C92_default_shared {V} (show : V -> string) fixed digits six p q r a m e n a' m' e' n' :
  let p1 := p ++ [NewDos V a m e n None] in
  let s := run V show fixed digits (p1 ++ q ++ [NewDos V a' m' e' n' None] ++ r) (start V six) in
  exists g, grid_of s (List.length (doses V (run V show fixed digits p (start V six)))) = Some g /\
            grid_of s (List.length (doses V (run V show fixed digits (p1 ++ q) (start V six)))) = Some g.
Proof. exact (defaults_agree show fixed digits six p q r a m e n a' m' e' n'). Qed.
Print Assumptions C92_default_shared.

(** So an object made without a grid need not have the documented default. *)
Theorem C92_default_refuted {V} (show : V -> string) fixed digits six v : v <> six ->
  ~ forall p a m e n, let s := run V show fixed digits p (start V six) in
    grid_of (fst (step V show fixed digits (NewDos V a m e n None) s)) (List.length (doses V s)) = Some [six; six; six].
Proof. exact (default_breaks show fixed digits six v). Qed.
Print Assumptions C92_default_refuted.
(** It has it in every program that changes no list. *)
Theorem C92_default_kept {V} (show : V -> string) fixed digits six p a m e n : (forall r i v, ~ In (SetList V r i v) p) -> (forall d i v, ~ In (SetGrid V d i v) p) ->
  let s := run V show fixed digits p (start V six) in
  grid_of (fst (step V show fixed digits (NewDos V a m e n None) s)) (List.length (doses V s)) = Some [six; six; six].
Proof. exact (default_kept show fixed digits six p a m e n). Qed.
Print Assumptions C92_default_kept.

(** The file written by [GenVext.to] reads back as the centre, the type, the details and the flag. *)
Theorem C92_vext_file {V} (show : V -> string) fixed digits six p x o path : let s := run V show fixed digits p (start V six) in
  (forall v, word (show v)) -> (forall z, word (digits z)) -> nth_error (vexts V s) x = Some o ->
  exists g s' c, nth_error (lists V s) (x_center V o) = Some g /\ step V show fixed digits (WriteVext V x path) s = (s', None) /\ rest_same s s' path /\ read_file (files V s') path = Some c /\
  data_lines c = ["VR_CENTER" :: "=" :: map show g; ["VR_TYPE"; "="; digits (x_type V o)]; "VR_DETAIL" :: "=" :: map show (x_details V o); ["ADD_VR"; "="; if x_add V o then "T" else "F"]].
Proof. exact (vext_written show fixed digits six p x o path). Qed.
Print Assumptions C92_vext_file.

(** A potential is made exactly when its type is 1, 2 or 3; otherwise an assertion fails and nothing
    changes. *)
Theorem C92_vext_type {V} (show : V -> string) fixed digits s c g t a l : nth_error (lists V s) c = Some g ->
  ((1 <= t <= 3)%Z <-> snd (step V show fixed digits (NewVext V c t a l) s) = None) /\
  (~ (1 <= t <= 3)%Z -> step V show fixed digits (NewVext V c t a l) s = (s, Some AssertionError)).
Proof. exact (vext_type show fixed digits s c g t a l). Qed.
Print Assumptions C92_vext_type.
(** The number of details is not compared with the type: for each type some object has too few. *)
Theorem C92_vext_count_refuted {V} (show : V -> string) fixed digits six t : (1 <= t <= 3)%Z ->
  exists p x, nth_error (vexts V (run V show fixed digits p (start V six))) 0 = Some x /\ x_type V x = t /\ List.length (x_details V x) < needed t.
Proof. exact (vext_count show fixed digits six t). Qed.
Print Assumptions C92_vext_count_refuted.

(** Cases: numbers shown as strings. *)
Example C92_case_dos :
  let s := run string (fun v => v) (fun v => if (v =? "0.04")%string then Ok "0.04000" else Err ValueError) (fun z => if (z =? 4000)%Z then "4000" else "?")
    [NewDos string "0" "1" "0.04" (Whole string 4000) None; SetGrid string 0 1 "8"; WriteDos string 0 "DOS.input"; NewDos string "0" "1" "?" (Whole string 4000) None; WriteDos string 1 "bad"] (start string "6") in
  option_map data_lines (read_file (files string s) "DOS.input") = Some [["0"]; ["1"]; ["0.04000"; "4000"]; ["6"; "8"; "6"]; ["0"]] /\
  option_map data_lines (read_file (files string s) "bad") = Some [["0"]; ["1"]] /\ grid_of s 1 = Some ["6"; "8"; "6"].
Proof. repeat split; reflexivity. Qed.
Example C92_case_vext :
  let s := run string (fun v => v) (fun v => Ok v) (fun z => if (z =? 1)%Z then "1" else "?")
    [NewList string ["0.5"; "0.5"; "0.5"]; NewVext string 1 1 true ["0.1"; "0.2"; "0.3"]; WriteVext string 0 "gen.vext"; NewVext string 1 4 true []] (start string "6") in
  read_file (files string s) "gen.vext" = Some ("VR_CENTER = 0.5 0.5 0.5" +++ String nl ("VR_TYPE = 1" +++ String nl ("VR_DETAIL = 0.1 0.2 0.3" +++ String nl ("ADD_VR = T" +++ String nl "")))) /\
  List.length (vexts string s) = 1.
Proof. split; reflexivity. Qed.
Example C92_case_padded : padded 10 "4000" "4000      " /\ padded 10 "12345678901" "12345678901".
Proof. split; [exact (spaces_padded "4000" 10)|exact (spaces_padded "12345678901" 10)]. Qed.
Example C92_case_word : word "0.04000" /\ ~ word "0 4" /\ ~ word "4#".
Proof. exact words_cases. Qed.
