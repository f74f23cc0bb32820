From Verif Require Import Text TextProofs JobModel JobSpec.
Open Scope string_scope.
Open Scope list_scope.

Lemma one_line_no_nl s : one_line s -> no_nl s.
Proof.
  induction s as [|c s IH]; intros H; [exact I|]. split.
  - intros ->. apply H. exists "", s. reflexivity.
  - apply IH. intros (a & b & ->). apply H. exists (String c a), b. reflexivity.
Qed.

Definition merged (j : job) : string :=
  ("#SBATCH --threads-per-core=" +++ num_threads_per_core j) +++ ("#SBATCH --gres=gpu:" +++ num_gpus j) +++ ("#SBATCH --gpus-per-task=" +++ num_gpus_per_task j).
Definition script_lines (j : job) : list string :=
  [ "#!/bin/bash" +++ String nl ""; ("#SBATCH --partition=" +++ partition j) +++ String nl ""; ("#SBATCH --job-name=" +++ name j) +++ String nl "";
    ("#SBATCH --nodes=" +++ num_nodes j) +++ String nl ""; ("#SBATCH --ntasks-per-node=" +++ num_tasks_per_node j) +++ String nl "";
    merged j +++ String nl ""; String nl ""; String nl ""; "None" ].

Lemma script_concat j : script j = concat_str (script_lines j).
Proof. unfold script, writes, script_lines, merged. cbn [concat_str]. rewrite !append_assoc, !append_empty_r. reflexivity. Qed.

Lemma no_nl_pre p s : no_nl p -> no_nl s -> no_nl (p +++ s).
Proof. intros. apply no_nl_app. auto. Qed.
Ltac lit := cbn; repeat split; discriminate.

Lemma lines_of_script j : plain j -> file_lines (script j) = script_lines j.
Proof.
  intros (H1 & H2 & H3 & H4 & H5 & H6 & H7). apply one_line_no_nl in H1, H2, H3, H4, H5, H6, H7. rewrite script_concat. apply file_lines_concat. unfold script_lines.
  repeat (apply wf_cons; [first [exists ""; split; [reflexivity|exact I] | eexists; split; [reflexivity|]; unfold merged; repeat (apply no_nl_pre; [first [lit | repeat (apply no_nl_pre; [lit|]); assumption]|]); first [lit | assumption]]|]).
  apply wf_last; [lit|discriminate].
Qed.

Lemma first_four j : plain j -> forall k d, nth_error (directives j) k = Some d -> (k < 4)%nat -> own_line d (script j).
Proof.
  intros Hp k d Hk L. unfold own_line. rewrite (lines_of_script j Hp). unfold script_lines. do 4 (destruct k as [|k]; [cbn [nth_error directives] in Hk; injection Hk as <-; cbn [In]; tauto|]). lia.
Qed.

Lemma last_three j : plain j -> forall k d, nth_error (directives j) k = Some d -> (4 <= k)%nat -> ~ own_line d (script j).
Proof.
  intros Hp k d Hk L. unfold own_line. rewrite (lines_of_script j Hp). unfold script_lines. do 4 (destruct k as [|k]; [lia|]). clear L.
  destruct k as [|[|[|k]]]; [| | |destruct k; discriminate]; cbn [nth_error directives] in Hk; injection Hk as <-; intros [E|[E|[E|[E|[E|[E|[E|[E|[E|[]]]]]]]]]]; cbn in E; try discriminate E.
  unfold merged in E. cbn in E. repeat match type of E with String _ _ = String _ _ => injection E as E end. rewrite append_assoc in E. apply append_inj_l in E. discriminate E.
Qed.

Lemma number_of_directives j : plain j -> List.length (filter (starts_with "#SBATCH") (file_lines (script j))) = 5%nat /\ List.length (directives j) = 7%nat.
Proof. intros Hp. rewrite (lines_of_script j Hp). split; reflexivity. Qed.

Lemma one_merged_line j : plain j -> exists line, In line (file_lines (script j)) /\ forall k d, nth_error (directives j) k = Some d -> (4 <= k)%nat -> contains d line = true.
Proof.
  intros Hp. exists (merged j +++ String nl ""). rewrite (lines_of_script j Hp). split; [cbn [In script_lines]; tauto|]. intros k d Hk L. apply contains_spec. do 4 (destruct k as [|k]; [lia|]). clear L.
  destruct k as [|[|[|k]]]; [| | |destruct k; discriminate]; cbn [nth_error directives] in Hk; injection Hk as <-; unfold merged.
  - exists "", ((("#SBATCH --gres=gpu:" +++ num_gpus j) +++ ("#SBATCH --gpus-per-task=" +++ num_gpus_per_task j)) +++ String nl ""). rewrite !append_assoc. reflexivity.
  - exists ("#SBATCH --threads-per-core=" +++ num_threads_per_core j), (("#SBATCH --gpus-per-task=" +++ num_gpus_per_task j) +++ String nl ""). rewrite !append_assoc. reflexivity.
  - exists (("#SBATCH --threads-per-core=" +++ num_threads_per_core j) +++ ("#SBATCH --gres=gpu:" +++ num_gpus j)), (String nl ""). rewrite !append_assoc. reflexivity.
Qed.

Definition job_ex : job := mkJob "gpu" "relax" "1" "4" "1" "4" "1".
Lemma job_case : plain job_ex /\ nth_error (file_lines (script job_ex)) 5 = Some ("#SBATCH --threads-per-core=1#SBATCH --gres=gpu:4#SBATCH --gpus-per-task=1" +++ String nl "").
Proof.
  split; [|vm_compute; reflexivity]. unfold plain. cbn [partition name num_nodes num_tasks_per_node num_threads_per_core num_gpus num_gpus_per_task job_ex].
  repeat split; intros (a & b & E); repeat (destruct a as [|? a]; [discriminate E|injection E as _ E]); destruct a; discriminate E.
Qed.
