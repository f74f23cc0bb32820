(** Property C60: outer powers of vectors. *)
From Verif Require Import OuterModel OuterSpec OuterProofs.
Open Scope nat_scope.

(** ** C60 *)

(** For rank nu = k + 1 the table has 3^k rows; read row by row it is the outer power: 3^nu
    cells, all written, the cell with base-3 digits d1 ... dnu holding the product of the
    components d1 ... dnu.  Only the first three numbers of the vector are used. *)
Theorem C60_outer_power :
  forall {T} (mul : T -> T -> T) x y z k vec, (exists rest, vec = x :: y :: z :: rest) ->
  exists t flat, outer mul k vec = Ok t /\ length t = 3 ^ k /\ concat t = map Some flat /\ outer_power mul (S k) x y z flat.
Proof. exact @outer_correct. Qed.
Print Assumptions C60_outer_power.

Example C60_case : exists t, outer Z.mul 2 [2; 3; 5]%Z = Ok t /\ concat t =
  map Some [8; 12; 20; 12; 18; 30; 20; 30; 50; 12; 18; 30; 18; 27; 45; 30; 45; 75; 20; 30; 50; 30; 45; 75; 50; 75; 125]%Z.
Proof. exact ex_outer. Qed.

(** A vector with fewer than three components is read past its end. *)
Theorem C60_short_vector : forall {T} (mul : T -> T -> T) k vec, length vec < 3 -> outer mul k vec = Err IndexError.
Proof. exact @short_vector. Qed.
Print Assumptions C60_short_vector.
