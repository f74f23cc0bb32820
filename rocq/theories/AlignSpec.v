(** What aligned arrays promise. *)
From Verif Require Export AlignModel.
Open Scope Z_scope.

(** An array as a user sees it: bytes per element and number of elements. *)
Definition shape : Type := (Z * Z)%type.
Definition shapes : Type := nat -> option shape.
Definition set_shape (s : shapes) (i : nat) (v : option shape) : shapes := fun k => if (k =? i)%nat then v else s k.
Definition ameaning (s : shapes) (o : aop) : shapes :=
  match o with
  | ANew i e => set_shape s i (Some (e, 0))
  | ANewSize i e n _ => set_shape s i (Some (e, n))
  | AResize i n _ => match s i with Some (e, _) => set_shape s i (Some (e, n)) | None => s end
  | ACopy i j => set_shape s i (s j)
  | ADestroy i => set_shape s i None
  end.

(** The allocator's promise for a block of [len] bytes at [addr]: not inside a block in use. *)
Definition apart (a la b lb : Z) : Prop := a + la <= b \/ b + lb <= a.
Definition free_range (h : blocks) (addr len : Z) : Prop :=
  forall b a n, nth_error h b = Some (a, n, true) -> apart a n addr len.

(** Programs that construct once, resize and destroy while alive, do not copy, and whose
    allocations succeed and obey the promise. *)
Definition ausable (w : aworld) (s : shapes) (o : aop) : Prop :=
  match o with
  | ANew i e => s i = None /\ 0 < e
  | ANewSize i e n addr => s i = None /\ 0 < e /\ 0 <= n /\ exists x, addr = Some x /\ free_range (snd w) x (e * n + 15)
  | AResize i n addr => 0 <= n /\ exists e m, s i = Some (e, m) /\ exists x, addr = Some x /\ free_range (snd w) x (e * n + 15)
  | ACopy _ _ => False
  | ADestroy i => s i <> None
  end.
Fixpoint ausable_all (w : aworld) (s : shapes) (l : list aop) : Prop :=
  match l with
  | [] => True
  | o :: r => ausable w s o /\ forall w', astep w o = HOk w' -> ausable_all w' (ameaning s o) r
  end.
Definition ameaning_of (s : shapes) (l : list aop) : shapes := fold_left ameaning l s.

(** Bytes first..last belong to some block in use. *)
Definition in_use (h : blocks) (first last : Z) : Prop :=
  exists b a n, nth_error h b = Some (a, n, true) /\ a <= first /\ last <= a + n.

(** Every array has the size asked for; its elements start at a multiple of 16 and all lie in
    memory in use; elements of different arrays do not overlap. *)
Definition aligned_arrays (w : aworld) (s : shapes) : Prop :=
  (forall i, match s i with
             | None => size_of w i = HErr NoObject
             | Some (e, n) =>
               size_of w i = HOk n /\ exists d, (forall k, element_address w i k = HOk (d + e * k)) /\ d mod 16 = 0 /\
               forall k, 0 <= k < n -> in_use (snd w) (d + e * k) (d + e * k + e)
             end) /\
  (forall i j e n f m d d', i <> j -> s i = Some (e, n) -> s j = Some (f, m) -> element_address w i 0 = HOk d -> element_address w j 0 = HOk d' ->
    forall k l, 0 <= k < n -> 0 <= l < m -> apart (d + e * k) e (d' + f * l) f).

Definition astart : aworld := (fun _ => None, []).
Definition no_shape : shapes := fun _ => None.
Definition all_released (w : aworld) : Prop := forall b a n, nth_error (snd w) b <> Some (a, n, true).
(** What such a program can lead to. *)
Definition areachable (w : aworld) : Prop := exists l, ausable_all astart no_shape l /\ arun astart l = HOk w.
