(** Concrete files for the properties of reading files several times. *)
From Coq Require Import ZArith.
From Verif Require Import Text MovementModel AtomConfigModel FreshModel FreshSpec.
Open Scope string_scope.
Open Scope list_scope.

Definition int_z (t : string) : result Z := bind (parse_int t) (fun n => Ok (Z.of_N n)).
Definition nl_ : string := String nl "".
Definition lines_ (l : list string) : string := concat_str (map (fun s => s +++ nl_) l).

(** Nothing on the disk. *)
Definition empty_disk : string -> option string := fun _ => None.

Definition fermi_3 : string := lines_ ["Efermi= 3 eV"].
Definition fermi_5 : string := lines_ ["Efermi= 5 eV"].
Definition kpt_two : string := lines_ ["2"; "2 0"; "0 0 0 1 G"; "1 0 0 1 M"].
Definition kpt_three : string := lines_ ["3"; "2 0"; "0 0 0 1 G"; "1 0 0 1"; "1 1 0 1 K"].
(** A first line that does not fit, and an empty last line. *)
Definition kpt_wrong : string := lines_ ["7"; "2 0"; "0 0 0 1 G"; "1 0 0 1 M"].
Definition kpt_blank : string := lines_ ["2"; "2 0"; "0 0 0 1 G"; "1 0 0 1 M"; ""].
Definition report_a : string := lines_ ["NUM_BAND = 4"; "NUM_KPT = 2"; "IN.ATOM = a.config"].
Definition report_b : string := lines_ ["PRECISION = 1"; "NUM_BAND = 8"; "NUM_KPT = 3"; "IN.ATOM = b.config"].
Definition ask_ := ask N int_z parse_int (fun x => x).
Definition after_ := answer_after N int_z parse_int (fun x => x).
