(** * StoryProps: the log of strace.py is the history of the program (C121). *)
From Coq Require Import ZArith List Ascii String Bool.
From Verif Require Import PyBase Platform IntModel RegModel SigModel ArgModel ArgProofs3 DbgModel DbgSpec SysModel SysProofs3
  StraceModel StraceSpec StraceProofs4 StorySpec StoryProofs StoryProofs2 StoryProofs3 StoryProofs4.
Import ListNotations.
Open Scope Z_scope.

(** ** C121 *)
(** One program, whatever it does, from its start to its end (Linux): the log consists of the line
    of the start, one line per selected call (two with --enter) with the result of that call, and the line of the end;
    the process is asked to go on after every stop, with its signal; the result is the code of the program. *)
Theorem c121_log : forall p ns repr_fs errorcode strerror K stops o only child pid acts e first asked l le f rounds,
  running_linux p = true -> pid <> 0 ->
  begins o child K pid first asked -> performs K stops pid 0 (List.length asked) acts (ends K stops pid 0 e) ->
  story p ns repr_fs errorcode strerror o only pid 0 acts l -> end_lines p ns repr_fs o only pid 0 e le ->
  (3 * List.length acts + 3 <= rounds)%nat ->
  exists st', strace_main p ns repr_fs errorcode strerror K stops o only child rounds (S (S f)) (start p) = (st', Ret (Some (final_code acts e))) /\
    rev (t_log st') = first :: l ++ le /\
    rev (d_calls (t_dbg st')) = asked ++ flat_map (act_requests pid 0) acts ++ end_requests pid 0 e /\
    d_list (t_dbg st') = [].
Proof.
  intros p ns repr_fs errorcode strerror K stops o only child pid acts e first asked l le f rounds H1 H2.
  exact (whole_run p ns repr_fs errorcode strerror K stops o only child pid H1 H2 acts e first asked l le f rounds).
Qed.
Print Assumptions c121_log.
(** The status of strace.py: the code of the program, or (if it was killed) that of the last signal it had received. *)
Theorem c121_status : forall acts e, deadly (meaning e) ->
  exit_status (Ret (Some (final_code acts e))) = match meaning e with Exited c => c | _ => signal_code acts 0 mod 256 end.
Proof. exact program_status. Qed.
Print Assumptions c121_status.
(** There is only one story of a program and only one account of its end. *)
Theorem c121_unique : forall p ns repr_fs errorcode strerror o only pid id acts l1 l2,
  story p ns repr_fs errorcode strerror o only pid id acts l1 -> story p ns repr_fs errorcode strerror o only pid id acts l2 -> l1 = l2.
Proof. exact story_one. Qed.
Print Assumptions c121_unique.
Theorem c121_unique_end : forall p ns repr_fs o only pid id e l1 l2,
  end_lines p ns repr_fs o only pid id e l1 -> end_lines p ns repr_fs o only pid id e l2 -> l1 = l2.
Proof. exact end_one. Qed.
Print Assumptions c121_unique_end.
(** Every program can be run, and every process attached. *)
Theorem c121_runs : forall o child pid acts e x l, Forall answerable acts -> deadly (meaning e) -> child = Ok pid -> s_pid o = None -> s_program o = x :: l ->
  exists K stops first asked, begins o child K pid first asked /\ performs K stops pid 0 (List.length asked) acts (ends K stops pid 0 e).
Proof. exact can_run. Qed.
Print Assumptions c121_runs.
Theorem c121_attaches : forall o child pid acts e, Forall answerable acts -> deadly (meaning e) -> s_pid o = Some pid ->
  exists K stops first asked, begins o child K pid first asked /\ performs K stops pid 0 (List.length asked) acts (ends K stops pid 0 e).
Proof. exact can_attach. Qed.
Print Assumptions c121_attaches.
(** close(7) fails, the signal 10 arrives, a program is executed, and the process is killed inside close(7). *)
Example c121_ex : (exists l le,
  story linux_x86_64 no_names repr_ascii ENOENT_only strerror_ex plain [] 100 0 acts_ex l /\
  end_lines linux_x86_64 no_names repr_ascii plain [] 100 0 end_ex le /\
  map shown_text (l ++ le) =
    [T "close(7)                                 = -2 ENOENT (No such file or directory)";
     T "execve(NULL, NULL, NULL)                 = 0";
     T "close(7)"; T "*** Process 100 killed by signal signal<9> ***"]) /\
  final_code acts_ex end_ex = 138 /\ Forall answerable acts_ex /\ deadly (meaning end_ex).
Proof. split; [exact story_ex|]. repeat split; repeat constructor; vm_compute; congruence. Qed.
