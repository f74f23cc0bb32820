(** Job scripts: C36.  The definitions are in [JobModel] (code) and [JobSpec] (vocabulary). *)
From Verif Require Import Text JobModel JobSpec JobProofs.
Open Scope string_scope.
Open Scope list_scope.

(** ** C36 *)

(** The first four of the seven directives are lines of their own. *)
Theorem C36_first_four :
  forall j, plain j -> forall k d, nth_error (directives j) k = Some d -> (k < 4)%nat -> own_line d (script j).
Proof. exact first_four. Qed.
Print Assumptions C36_first_four.

(** The last three never are: threads per core, GPUs and GPUs per task. *)
Theorem C36_last_three_refuted :
  forall j, plain j -> forall k d, nth_error (directives j) k = Some d -> (4 <= k)%nat -> ~ own_line d (script j).
Proof. exact last_three. Qed.
Print Assumptions C36_last_three_refuted.

(** They share one line. *)
Theorem C36_merged :
  forall j, plain j -> exists line, In line (file_lines (script j)) /\ forall k d, nth_error (directives j) k = Some d -> (4 <= k)%nat -> contains d line = true.
Proof. exact one_merged_line. Qed.
Print Assumptions C36_merged.

(** So the scheduler sees five directive lines instead of seven. *)
Theorem C36_five_of_seven :
  forall j, plain j -> List.length (filter (starts_with "#SBATCH") (file_lines (script j))) = 5%nat /\ List.length (directives j) = 7%nat.
Proof. exact number_of_directives. Qed.
Print Assumptions C36_five_of_seven.

Example C36_case : plain job_ex /\ nth_error (file_lines (script job_ex)) 5 = Some ("#SBATCH --threads-per-core=1#SBATCH --gres=gpu:4#SBATCH --gpus-per-task=1" +++ String nl "").
Proof. exact job_case. Qed.
