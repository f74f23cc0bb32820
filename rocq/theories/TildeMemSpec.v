(** What the objects of [TildeR] are for their users: values without memory. *)
From Verif Require Import HeapModel TildeMemModel.
Local Open Scope nat_scope.

(** Species with their numbers of atoms; an object without central species is empty. *)
Record tvalue : Type := { v_list : nlist; v_centers : list (Z * Z); v_neighs : list (Z * Z); v_rcut : Z; v_smooth : Z }.
(** What the variables hold and how many blocks of memory were lost. *)
Definition tvalues : Type := list (option tvalue).

Definition largest (l : list nat) : nat := fold_right Nat.max 0 l.
(** The species of atom [i] of the supercell. *)
Definition is_species (nl : nlist) (z : Z) (i : nat) : bool := match nth_error (nl_numbers nl) i with Some a => (a =? z)%Z | None => false end.
(** Atoms of species [z] that have a list of neighbours. *)
Definition atoms_of (nl : nlist) (z : Z) : nat := length (filter (is_species nl z) (seq 0 (length (nl_lists nl)))).
(** Neighbours of species [z] of the atom that has the most. *)
Definition most_of (nl : nlist) (z : Z) : nat := largest (map (fun l => length (filter (is_species nl z) l)) (nl_lists nl)).

Definition tmade (nl : nlist) (cs ns : list Z) (counts : option (list Z)) (smooth : Z) : option tvalue :=
  match (match counts with
         | None => Some (map (fun z => Z.of_nat (most_of nl z)) ns)
         | Some ks => if length ns <=? length ks then Some (firstn (length ns) ks) else None
         end) with
  | Some kn => Some {| v_list := nl; v_centers := map (fun z => (z, Z.of_nat (atoms_of nl z))) cs; v_neighs := combine ns kn;
                       v_rcut := nl_rcut nl; v_smooth := smooth |}
  | None => None
  end.
Definition tnothing : tvalue := {| v_list := {| nl_rcut := 0; nl_numbers := []; nl_lists := [] |}; v_centers := []; v_neighs := []; v_rcut := 0; v_smooth := 0 |}.

Definition tholds (vs : tvalues) (x : nat) : option tvalue := match nth_error vs x with Some (Some v) => Some v | _ => None end.
Definition tvacant (vs : tvalues) (x : nat) : bool := match nth_error vs x with Some None => true | _ => false end.
(** The meaning of a command: [None] when the values asked for do not exist, for a copy of an object with
    two or more central or neighbouring species, and for an object with atoms assigned to itself.  A
    copy of an empty object loses four blocks. *)
Definition tmeaning (c : tcommand) (m : tvalues * nat) : option (tvalues * nat) :=
  let '(vs, lost) := m in
  let put x v := Some (replace vs x (Some v), lost) in
  match c with
  | TDefault x => if tvacant vs x then put x tnothing else None
  | TMake x nl cs ns counts smooth => if tvacant vs x then match tmade nl cs ns counts smooth with Some v => put x v | None => None end else None
  | TCopy x y =>
      if tvacant vs x then
        match tholds vs y with
        | Some v => match v_centers v, v_neighs v with
                    | [], _ => Some (replace vs x (Some v), lost + 4)
                    | [_], [_] => put x v
                    | _, _ => None
                    end
        | None => None
        end
      else None
  | TAssign x y =>
      match tholds vs x, tholds vs y with
      | Some _, Some v =>
          if x =? y then
            match nl_lists (v_list v) with
            | [] => put x {| v_list := v_list v; v_centers := []; v_neighs := []; v_rcut := v_rcut v; v_smooth := v_smooth v |}
            | _ :: _ => None
            end
          else put x v
      | _, _ => None
      end
  | TDestroy x => match tholds vs x with Some _ => Some (replace vs x None, lost) | None => None end
  end.
Fixpoint tmeaning_all (l : list tcommand) (m : tvalues * nat) : option (tvalues * nat) :=
  match l with [] => Some m | c :: r => match tmeaning c m with Some m => tmeaning_all r m | None => None end end.

(** No variable holds anything. *)
Definition tnone (n : nat) : tvalues := repeat None n.

(** Constructions name central and neighbouring species, and their neighbour list speaks of atoms that exist. *)
Definition sound_list (nl : nlist) : Prop :=
  length (nl_lists nl) <= length (nl_numbers nl) /\ Forall (Forall (fun i => i < length (nl_numbers nl))) (nl_lists nl).
Definition proper (c : tcommand) : Prop :=
  match c with TMake _ nl cs ns _ _ => sound_list nl /\ cs <> [] /\ ns <> [] | _ => True end.

(** What is printed of a value. *)
Definition summary_of (v : tvalue) : option summary :=
  match v_centers v with
  | [] => None
  | _ :: _ => Some {| s_centers := map fst (v_centers v); s_neighs := map fst (v_neighs v); s_rcut := v_rcut v; s_smooth := v_smooth v;
                      s_ccounts := map snd (v_centers v); s_ncounts := map snd (v_neighs v);
                      s_shape := (fold_right Z.add 0%Z (map snd (v_centers v)), fold_right Z.add 0%Z (map snd (v_neighs v))) |}
  end.
Definition tseen (s : tstore) (x : nat) : hres (option summary) := hbind (tobject (fst s) x) (fun o => t_show o (snd s)).
Definition texpected (v : option tvalue) : hres (option summary) := match v with Some v => HOk (summary_of v) | None => HErr NoObject end.
Definition ttarget (c : tcommand) : nat := match c with TDefault x | TMake x _ _ _ _ _ | TCopy x _ | TAssign x _ | TDestroy x => x end.

(** Memory in use, and the memory that the values need. *)
Definition blocks_in_use (h : heap) : nat := length (filter (fun b => match b with Some _ => true | None => false end) h).
Definition tneeded (v : option tvalue) : nat :=
  match v with Some v => match v_centers v with [] => 0 | _ :: _ => 4 end | None => 0 end.
Definition tneeded_all (vs : tvalues) : nat := list_sum (map tneeded vs).

(** Copies made by the copy constructor. *)
Definition copies (c : tcommand) : bool := match c with TCopy _ _ => true | _ => false end.
