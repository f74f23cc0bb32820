(** Model of matersdk/hpc/slurm/job.py: the job script.  Every parameter is the text that
    [str.format] prints for it (a missing one prints None). *)
From Verif Require Import Text.
Open Scope string_scope.
Open Scope list_scope.

Record job := mkJob {
  partition : string; name : string; num_nodes : string; num_tasks_per_node : string;
  num_threads_per_core : string; num_gpus : string; num_gpus_per_task : string }.

(** job.py:49-53: [attach_command] returns None. *)
Definition command : string := "None".

(** job.py:56-71: the texts written, in order. *)
Definition writes (j : job) : list string :=
  [ "#!/bin/bash" +++ String nl "";
    "#SBATCH --partition=" +++ partition j +++ String nl "";
    "#SBATCH --job-name=" +++ name j +++ String nl "";
    "#SBATCH --nodes=" +++ num_nodes j +++ String nl "";
    "#SBATCH --ntasks-per-node=" +++ num_tasks_per_node j +++ String nl "";
    "#SBATCH --threads-per-core=" +++ num_threads_per_core j;
    "#SBATCH --gres=gpu:" +++ num_gpus j;
    "#SBATCH --gpus-per-task=" +++ num_gpus_per_task j;
    String nl (String nl (String nl ""));
    command ].
Definition script (j : job) : string := concat_str (writes j).
