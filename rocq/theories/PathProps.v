(** * PathProps: the log of examples/itrace.py is the path of the program (C126). *)
From Coq Require Import ZArith List Ascii String Bool.
From Verif Require Import PyBase Platform ArgModel SigModel ArgProofs3 DbgModel DbgSpec SysModel StraceModel StraceSpec StraceProofs4 StorySpec ItraceModel ItraceSpec PathSpec PathProofs2 PathProofs3.
Import ListNotations.
Open Scope Z_scope.

(** ** C126 *)
(** One program without signals from its start to its end (Linux): the first line, the numbers of the [k] stops of system calls,
    one line for each instruction with its address, and the end.  Every stop is followed by one request. *)
Theorem c126_path_partial : forall p ns repr_fs K stops o child ip pid, running_linux p = true -> pid <> 0 ->
  forall started first asked k path a m rounds f, arrives o child K pid started first asked ->
  passes K pid 0 (List.length asked) k (fun n => walks K ip pid 0 n path (last_step K ip pid 0 a m)) -> deadly m ->
  exists st', itrace_main p ns repr_fs K stops o child ip (Some (Z.of_nat k)) (List.length path + S rounds) (S (S f)) (start p) = (st', Ret None) /\
    rev (t_log st') = first :: counted k 0 ++ walk_lines pid 0 (path ++ [a]) ++ [LLine (T "process exit")] /\
    rev (d_calls (t_dbg st')) = asked ++ pass_requests pid 0 k ++ walk_requests pid 0 (path ++ [a]) /\ d_list (t_dbg st') = [].
Proof. exact path_to_end. Qed.
Print Assumptions c126_path_partial.
(** The program ends before the given number of stops. *)
Theorem c126_short : forall p ns repr_fs K stops o child ip pid, running_linux p = true -> pid <> 0 ->
  forall started first asked k more m rounds f, arrives o child K pid started first asked ->
  passes K pid 0 (List.length asked) k (last_call K pid 0 m) -> deadly m ->
  exists st', itrace_main p ns repr_fs K stops o child ip (Some (Z.of_nat (k + S more))) rounds (S (S f)) (start p) =
      (st', Ret (Some (match m with Exited c => c | _ => 0 end))) /\
    rev (t_log st') = first :: counted (S k) 0 ++ [end_line ns pid m] /\
    rev (d_calls (t_dbg st')) = asked ++ pass_requests pid 0 (S k) /\ d_list (t_dbg st') = [].
Proof. exact path_short. Qed.
Print Assumptions c126_short.
(** A signal, whatever it would do to the program, ends the trace: the program is killed if it was started, and let go without
    the signal if it was attached. *)
Theorem c126_signal : forall p ns repr_fs K stops o child ip pid, running_linux p = true -> pid <> 0 ->
  forall started first asked k path a s rounds f, arrives o child K pid started first asked ->
  passes K pid 0 (List.length asked) k (fun n => walks K ip pid 0 n path (fun n => last_step K ip pid 0 a (Stopped s) n /\
    if started then k_do K (2 + n) (KCont 0 pid 9) = Ok tt /\ exists core, reports K pid (3 + n) (Killed 9 core)
    else k_do K (2 + n) (KDetach 0 pid) = Ok tt)) -> 1 <= s < 128 -> s <> 5 ->
  exists st', itrace_main p ns repr_fs K stops o child ip (Some (Z.of_nat k)) (List.length path + S rounds) (S (S f)) (start p) = (st', Ret None) /\
    rev (t_log st') = first :: counted k 0 ++ walk_lines pid 0 (path ++ [a]) ++ [LLine (T "died with signal " ++ str_int s)] /\
    rev (d_calls (t_dbg st')) = asked ++ pass_requests pid 0 k ++ walk_requests pid 0 (path ++ [a]) ++
      (if started then [KCont 0 pid 9; KWait pid 0] else [KDetach 0 pid]) /\ d_list (t_dbg st') = [].
Proof. exact path_to_signal. Qed.
Print Assumptions c126_signal.
(** Whatever the program, the signal 17 (a child has ended) makes itrace.py kill it. *)
Theorem c126_signal_refuted : forall o pid, pid <> 0 -> s_pid o = None -> s_program o <> [] ->
  exists K ip first asked, arrives o (Ok pid) K pid true first asked /\
    (exists n a, n = List.length asked /\ last_step K ip pid 0 a (Stopped 17) n) /\
    forall p ns repr_fs stops, running_linux p = true -> exists st', itrace_main p ns repr_fs K stops o (Ok pid) ip (Some 0) 1 2 (start p) = (st', Ret None) /\
      In (KCont 0 pid 9) (d_calls (t_dbg st')) /\ ~ (exists c, In c (d_calls (t_dbg st')) /\ match c with KCont _ _ s | KSyscall _ _ s => s = 17 | _ => False end).
Proof. exact killed_wrongly. Qed.
Print Assumptions c126_signal_refuted.
(** Every path can be watched. *)
Theorem c126_paths : forall o pid k path a m x l, Forall (fun a => 0 <= a) (path ++ [a]) -> s_pid o = None -> s_program o = x :: l ->
  exists K ip first asked, arrives o (Ok pid) K pid true first asked /\
    passes K pid 0 (List.length asked) k (fun n => walks K ip pid 0 n path (last_step K ip pid 0 a m)).
Proof. exact can_be_watched. Qed.
Print Assumptions c126_paths.
Example c126_ex :
  let l := [(Stopped 5, 0); (Stopped 5, 0); (CALL_STOP, 0); (CALL_STOP, 0); (Stopped 5, 4096); (Stopped 5, 0); (Stopped 5, 0x7fff12345678); (Exited 3, 0)] in
  rev (t_log (fst (itrace_main linux_x86_64 no_names repr_ascii (listed l) (fun _ _ => StoryProofs3.idle) plain (Ok 100) (listed_ip l) (Some 1) 9 9 (start linux_x86_64)))) =
  [LLine (execve_line (T "/bin/true") [T "/bin/true"] 100); LLine (T "0"); LLine (T "0 100 [00001000]"); LLine (T "1 100 [7fff12345678]"); LLine (T "process exit")].
Proof. vm_compute. reflexivity. Qed.
