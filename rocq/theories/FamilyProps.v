(** * FamilyProps: the log of strace.py --fork follows every process (C123). *)
From Coq Require Import ZArith List Ascii String Bool.
From Verif Require Import PyBase Platform IntModel RegModel SigModel ArgModel ArgProofs3 DbgModel DbgSpec SysModel SysProofs3
  StraceModel StraceSpec StraceProofs4 StorySpec FamilySpec FamilyProofs4 FamilyProofs5.
Import ListNotations.
Open Scope Z_scope.

(** ** C123 *)
(** A program and all the processes and threads it makes, in any order of events, from the start until everybody is dead (Linux):
    the log has the line of the start, then the lines of each step; and the lines of a process are those of its own steps,
    whatever the others do in between.  The requests are those of the history. *)
Theorem c123_log : forall p ns repr_fs errorcode strerror K stops o only child pid first asked quiet steps asked' r rounds fuel,
  running_linux p = true -> pid <> 0 ->
  begins o child K pid first asked ->
  happens K stops (all_options o) quiet 1 [Member 0 pid false] (List.length asked) steps asked' -> map fst r = steps ->
  (forall c, In c ((0%nat, pid) :: children steps) -> tale p ns repr_fs errorcode strerror o only (snd c) (fst c) Between (part (fst c) r)) ->
  (quiet + 3 <= fuel)%nat -> (List.length steps < rounds)%nat ->
  exists st', strace_main p ns repr_fs errorcode strerror K stops o only child rounds fuel (start p) = (st', Ret (Some (family_code steps 0))) /\
    rev (t_log st') = first :: List.concat (map snd r) /\ rev (d_calls (t_dbg st')) = asked ++ asked' /\ d_list (t_dbg st') = [].
Proof.
  intros p ns repr_fs errorcode strerror K stops o only child pid first asked quiet steps asked' r rounds fuel H1 H2.
  exact (whole_family p ns repr_fs errorcode strerror K stops o only child pid H1 H2 first asked quiet steps asked' r rounds fuel).
Qed.
Print Assumptions c123_log.
(** A history has only one account. *)
Theorem c123_unique : forall p ns repr_fs errorcode strerror o only pid steps r1 r2,
  possible 1 [Member 0 pid false] steps -> map fst r1 = steps -> map fst r2 = steps ->
  (forall c, In c ((0%nat, pid) :: children steps) -> tale p ns repr_fs errorcode strerror o only (snd c) (fst c) Between (part (fst c) r1)) ->
  (forall c, In c ((0%nat, pid) :: children steps) -> tale p ns repr_fs errorcode strerror o only (snd c) (fst c) Between (part (fst c) r2)) -> r1 = r2.
Proof. exact account_one. Qed.
Print Assumptions c123_unique.
(** Every history can happen to a program, and to an attached process. *)
Theorem c123_runs : forall o child pid steps x l, possible 1 [Member 0 pid false] steps -> child = Ok pid -> s_pid o = None -> s_program o = x :: l ->
  exists K stops first asked asked', begins o child K pid first asked /\
    happens K stops (all_options o) 0 1 [Member 0 pid false] (List.length asked) steps asked'.
Proof. exact family_runs. Qed.
Print Assumptions c123_runs.
Theorem c123_attaches : forall o child pid steps, possible 1 [Member 0 pid false] steps -> s_pid o = Some pid ->
  exists K stops first asked asked', begins o child K pid first asked /\
    happens K stops (all_options o) 0 1 [Member 0 pid false] (List.length asked) steps asked'.
Proof. exact family_attaches. Qed.
Print Assumptions c123_attaches.
(** The program forks; the parent and the child call close(7) one inside the other; the parent receives SIGCHLD (17) and exits;
    the child is killed inside a call. *)
Example c123_ex : possible 1 [Member 0 100 false] steps_ex /\ family_code steps_ex 0 = 3 /\
  exists r, map fst r = steps_ex /\
  (forall c, In c ((0%nat, 100) :: children steps_ex) ->
    tale linux_x86_64 no_names repr_ascii ENOENT_only strerror_ex forking [] (snd c) (fst c) Between (part (fst c) r)) /\
  map shown_text (List.concat (map snd r)) =
    [T "*** New process 101 ***";
     T "[100] close(7)                                 = -2 ENOENT (No such file or directory)";
     T "[101] close(7)                                 = 0";
     T "*** Process 100 exited with code 3 ***";
     T "[101] close(7)"; T "*** Process 101 killed by signal signal<9> ***"].
Proof. exact (conj steps_possible (conj eq_refl family_ex)). Qed.
