(** Vocabulary for job scripts. *)
From Verif Require Import Text JobModel.
Open Scope string_scope.
Open Scope list_scope.

(** The seven directives a user asks for. *)
Definition directives (j : job) : list string :=
  [ "#SBATCH --partition=" +++ partition j; "#SBATCH --job-name=" +++ name j; "#SBATCH --nodes=" +++ num_nodes j;
    "#SBATCH --ntasks-per-node=" +++ num_tasks_per_node j; "#SBATCH --threads-per-core=" +++ num_threads_per_core j;
    "#SBATCH --gres=gpu:" +++ num_gpus j; "#SBATCH --gpus-per-task=" +++ num_gpus_per_task j ].

(** No parameter contains a line break. *)
Definition one_line (s : string) : Prop := ~ exists a b, s = a +++ String nl b.
Definition plain (j : job) : Prop :=
  one_line (partition j) /\ one_line (name j) /\ one_line (num_nodes j) /\ one_line (num_tasks_per_node j) /\
  one_line (num_threads_per_core j) /\ one_line (num_gpus j) /\ one_line (num_gpus_per_task j).

(** The directive is a line of the script. *)
Definition own_line (d script : string) : Prop := In (d +++ String nl "") (file_lines script).
