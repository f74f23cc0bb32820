(** Model of the operators that treat a batch of structures:
    source/descriptor/deepmd/src/envMatrixOp.cc and se4pw_op.cc.
    An output tensor is one flat list; [tensor[ii].data_ptr()] is a position in it, and what
    is written there is not held back by the end of the structure's part.
    Simplified: an input tensor is a list of one row per structure, and reading behind a row
    is an error; both floating-point types are real numbers; a structure whose own loop
    leaves its own slots is an error (see C49). *)
From Verif Require Export SlotModel.
Open Scope nat_scope.

Record image : Type := { im_ilist : list nat; im_numneigh : list nat; im_firstneigh : list nat;
  im_coords : list R; im_types : list nat; im_umax : list nat }.

(** One structure after the other, from its position on. *)
Fixpoint lay_out {V} (part : nat) (ii : nat) (outs : list (result (list V))) (mem : list V) : result (list V) :=
  match outs with
  | [] => Ok mem
  | o :: r => bind o (fun vs => bind (write_group mem (ii * part) vs) (fun mem => lay_out part (S ii) r mem))
  end.

(** envMatrixOp.cc:23-126, [EnvMatrixFunction::forward]: the values, with [g] = 4, or the
    derivatives, with [g] = 12.  The width of the output is that of the first structure; the
    loop (envMatrix.h) takes the one of each structure. *)
Definition env_run (inum : nat) (rcut rcut_smooth : R) (i : image) : result (list R * list R) :=
  find_value_deriv inum (im_numneigh i) (im_firstneigh i) (im_coords i) (im_types i) (im_umax i) rcut rcut_smooth.
Definition env_forward (inum : nat) (rcut rcut_smooth : R) (batch : list image) : result (list R * list R) :=
  bind (get batch 0) (fun first =>
  let w := width (im_umax first) in
  let runs := map (env_run inum rcut rcut_smooth) batch in
  bind (lay_out (inum * w * 4) 0 (map (fun o => bind o (fun p => Ok (fst p))) runs) (repeat 0%R (length batch * (inum * w * 4)))) (fun v =>
  bind (lay_out (inum * w * 12) 0 (map (fun o => bind o (fun p => Ok (snd p))) runs) (repeat 0%R (length batch * (inum * w * 12)))) (fun dv =>
  Ok (v, dv)))).

(** se4pw_op.cc:30-107, [Se4pwOp::forward]: one list of reserved numbers for the batch; the
    calls [.to(int_dtype)] have no effect.  [im_umax] is not used. *)
Definition pw_run (inum : nat) (umax : list nat) (rcut rcut_smooth : R) (i : image) : result (list R * list R * list R) :=
  se4pw_generate inum (im_ilist i) (im_numneigh i) (im_firstneigh i) (im_coords i) (im_types i) umax rcut rcut_smooth.
Definition pw_forward (inum : nat) (umax : list nat) (rcut rcut_smooth : R) (batch : list image) : result (list R * list R * list R) :=
  let w := width umax in
  let runs := map (pw_run inum umax rcut rcut_smooth) batch in
  let out g (f : list R * list R * list R -> list R) :=
    lay_out (inum * w * g) 0 (map (fun o => bind o (fun p => Ok (f p))) runs) (repeat 0%R (length batch * (inum * w * g))) in
  bind (out 4 (fun p => fst (fst p))) (fun v => bind (out 12 (fun p => snd (fst p))) (fun dv =>
  bind (out 3 (fun p => snd p)) (fun rel => Ok (v, dv, rel)))).

(** se4pw_op.cc:111-144 *)
Definition prim_forward (inum : nat) (umax : list nat) (batch : list image) : result (list Z) :=
  lay_out (inum * width umax) 0
    (map (fun i => prim_indices inum (im_numneigh i) (im_firstneigh i) (im_types i) umax) batch)
    (repeat 0%Z (length batch * (inum * width umax))).
