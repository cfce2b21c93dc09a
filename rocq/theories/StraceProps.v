(** * StraceProps: theorems about strace.py (C49-C51, C81, C82, C108). *)
From Coq Require Import ZArith List Ascii String Bool Lia.
From Verif Require Import PyBase PyFacts Platform IntModel RegModel SigModel TabModel TabSpec ToolsModel ArgModel ArgProofs3 DbgModel DbgSpec DbgProofs DbgProofs3 DbgFinal2
  SysModel SysSpec SysProofs3 StraceModel StraceSpec StraceProofs StraceProofs2 StraceProofs3 StraceProofs4 StraceProofs5.
Import ListNotations.
Open Scope Z_scope.

(** ** C49 *)
(** When the loop ends, strace ends with the code of the last process that exited with a code, or with 128 + the last
    signal if that came later. *)
Theorem c49_last : forall p ns repr_fs errorcode strerror K stops o only child rounds f st1 code st2 code',
  runDebugger p ns repr_fs errorcode strerror K stops o only child rounds f (start p) = (st1, Ret code) ->
  strace_main p ns repr_fs errorcode strerror K stops o only child rounds f (start p) = (st2, Ret code') ->
  exit_status (Ret code') = last_code (t_seen st1) mod 256.
Proof. exact main_code. Qed.
Print Assumptions c49_last.
Theorem c49_exit_partial : forall p ns repr_fs errorcode strerror K stops o only child rounds f st1 code st2 code' id s c rest,
  runDebugger p ns repr_fs errorcode strerror K stops o only child rounds f (start p) = (st1, Ret code) ->
  strace_main p ns repr_fs errorcode strerror K stops o only child rounds f (start p) = (st2, Ret code') ->
  t_seen st1 = (true, ProcessExit id s (Some c)) :: rest -> 0 <= c < 256 -> exit_status (Ret code') = c.
Proof. exact main_exit. Qed.
Print Assumptions c49_exit_partial.
Theorem c49_signal_partial : forall p ns repr_fs errorcode strerror K stops o only child rounds f st1 code st2 code' id n i rest,
  runDebugger p ns repr_fs errorcode strerror K stops o only child rounds f (start p) = (st1, Ret code) ->
  strace_main p ns repr_fs errorcode strerror K stops o only child rounds f (start p) = (st2, Ret code') ->
  t_seen st1 = (true, ProcessExit id (Some n) None) :: (true, ProcessSignal n i) :: rest -> 0 <= n < 128 -> exit_status (Ret code') = 128 + n.
Proof. exact main_signal. Qed.
Print Assumptions c49_signal_partial.
(** When an exception leaves the loop *)
Theorem c49_failure : forall p ns repr_fs errorcode strerror K stops o only child rounds f st1 x st2 code',
  runDebugger p ns repr_fs errorcode strerror K stops o only child rounds f (start p) = (st1, Raise x) ->
  strace_main p ns repr_fs errorcode strerror K stops o only child rounds f (start p) = (st2, Ret code') -> code' = Some (failure_code x).
Proof. exact main_failure. Qed.
Print Assumptions c49_failure.
(** The status is the low byte of the code; 1 for an exception that leaves main(). *)
Theorem c49_status : forall r, exit_status r = match r with
  | Ret (Some code) | Raise (XErr (ESystemExit code)) => Z.land code 255
  | Ret None => 0
  | Raise _ => 1
  end.
Proof. exact status_byte. Qed.
Print Assumptions c49_status.
(** A process killed without a signal-stop (SIGKILL): the status is 0, or that of an earlier, handled, signal. *)
Theorem c49_kill_refuted : exists K K' early rest,
  t_seen (fst (trace_of plain [] closes K)) = (true, ProcessExit 0 (Some 9) None) :: early /\ exit_status (snd (trace_of plain [] closes K)) <> 128 + 9 /\
  t_seen (fst (trace_of plain [] closes K')) = (true, ProcessExit 0 (Some 9) None) :: rest /\ exit_status (snd (trace_of plain [] closes K')) = 0.
Proof. exact kill_status. Qed.
Print Assumptions c49_kill_refuted.
(** The process given by --pid cannot be attached: the status is 0. *)
Theorem c49_attach_refuted : exists o K, s_pid o = Some 100 /\ requests (trace_of o [] closes K) = [KAttach 100] /\ exit_status (snd (trace_of o [] closes K)) = 0.
Proof. exact attach_status. Qed.
Print Assumptions c49_attach_refuted.
(** --fork: the status is that of the child if it ends last. *)
Theorem c49_fork_refuted : exists o K rest, t_seen (fst (trace_of o [] closes K)) = (true, ProcessExit 1 None (Some 1)) :: (true, ProcessExit 0 None (Some 3)) :: rest /\
  exit_status (snd (trace_of o [] closes K)) = 1.
Proof. exact fork_status. Qed.
Print Assumptions c49_fork_refuted.
Example c49_ex :
  snd (run_of plain [] closes (scripted close_exit)) = Ret (Some 3) /\ snd (trace_of plain [] closes (scripted close_exit)) = Ret (Some 3) /\
  t_seen (fst (run_of plain [] closes (scripted close_exit))) = [(true, ProcessExit 0 None (Some 3)); (false, ProcessSignal 133 0); (false, ProcessSignal 133 0)] /\
  t_seen (fst (run_of plain [] closes (scripted segv))) = [(true, ProcessExit 0 (Some 11) None); (true, ProcessSignal 11 0)] /\
  snd (run_of plain [] closes (scripted segv)) = Ret (Some 139) /\ snd (trace_of plain [] closes (scripted segv)) = Ret (Some 139).
Proof. conjs; vm_compute; reflexivity. Qed.

(** ** C50 *)
(** Only selected calls are shown, whatever happens (for the processes strace has announced). *)
Theorem c50_shown : forall p ns repr_fs errorcode strerror K stops o only child rounds f st' r,
  strace_main p ns repr_fs errorcode strerror K stops o only child rounds f (start p) = (st', r) ->
  forall after before id c t, t_log st' = after ++ LSyscall id c t :: before -> known_process before id ->
  exists name, call_name p (c_number c) name /\ selected o only name.
Proof. exact main_selected. Qed.
Print Assumptions c50_shown.
(** A call is remembered (and shown at once with --enter) if and only if it is selected ... *)
Theorem c50_enter : forall p ns repr_fs errorcode strerror K stops o only f id st st',
  handle_syscall p ns repr_fs errorcode strerror K stops o only f id st = (st', Ret tt) -> is_ready st id = true -> ss_exit (state_of st id) = false ->
  exists regs number name, st_regs (the_stop stops st id) = Ok regs /\ regs (SYSCALL_REGISTER p) = Ok number /\ call_name p number name /\
    ss_exit (state_of st' id) = true /\ ss_name (state_of st' id) = Some name /\
    (selected o only name -> exists c, ss_syscall (state_of st' id) = Some c /\ c_number c = number /\ c_result c = None /\
       (if s_enter o then exists line, t_log st' = LSyscall id c line :: t_log st else t_log st' = t_log st)) /\
    (~ selected o only name -> ss_syscall (state_of st' id) = None /\ t_log st' = t_log st).
Proof. exact stop_enter. Qed.
Print Assumptions c50_enter.
(** ... and what is remembered is shown when the call returns. *)
Theorem c50_exit : forall p ns repr_fs errorcode strerror K stops o only f id st st',
  handle_syscall p ns repr_fs errorcode strerror K stops o only f id st = (st', Ret tt) -> ss_exit (state_of st id) = true ->
  state_of st' id = cleared /\
  match ss_syscall (state_of st id) with
  | None => t_log st' = t_log st
  | Some c => exists result c' c'' t line, st_result (the_stop stops st id) = Ok result /\ exit_ p errorcode strerror (Ok result) c = Ok (c', t) /\
      shown c' c'' /\ c_number c'' = c_number c /\ c_result c'' <> None /\ t_log st' = LSyscall id c'' line :: t_log st
  end.
Proof. exact stop_exit. Qed.
Print Assumptions c50_exit.
(** The set is what the options ask for. *)
Theorem c50_set : forall names socket_names o only name, only_filter names socket_names o = inl only -> (In name only <-> asked_for socket_names o name).
Proof. exact filter_asked. Qed.
Print Assumptions c50_set.
(** An unknown name is rejected if a name not yet listed comes after it, and nothing else is. *)
Theorem c50_unknown_partial : forall names socket_names o s pre a mid b post,
  s_syscalls o = Some s -> s = join [","%char] (pre ++ a :: mid ++ b :: post) -> (forall x, In x (pre ++ a :: mid ++ b :: post) -> ~ In ","%char x) ->
  strip a <> [] -> ~ In (strip a) (map snd names) -> strip b <> [] -> ~ In (strip b) (map strip (pre ++ a :: mid)) ->
  exists lines x, only_filter names socket_names o = inr lines /\ ~ In x (map snd names) /\ In (T "ERROR: unknown syscall " ++ repr_ascii x) lines.
Proof. exact unknown_rejected. Qed.
Print Assumptions c50_unknown_partial.
Theorem c50_rejected : forall names socket_names o lines, only_filter names socket_names o = inr lines ->
  exists s x, s_syscalls o = Some s /\ listed s x /\ ~ In x (map snd names) /\ In (T "ERROR: unknown syscall " ++ repr_ascii x) lines.
Proof. exact rejected_unknown. Qed.
Print Assumptions c50_rejected.
(** The report: a line for each unknown name, and a hint. *)
Theorem c50_report : forall names socket_names o lines, only_filter names socket_names o = inr lines ->
  exists unknown, unknown <> [] /\ (forall x, In x unknown -> ~ In x (map snd names)) /\
    lines = map (fun x => T "ERROR: unknown syscall " ++ repr_ascii x) unknown ++ [[]; T "Use --list-syscalls options to get system calls list"].
Proof. exact filter_report. Qed.
Print Assumptions c50_report.
(** The last name is not checked. *)
Theorem c50_last_refuted : exists name, ~ (exists number, has_number linux_x86_64 number (T name)) /\
  accepted ("close," ++ name)%string = Some [T "close"; T name] /\ accepted name = Some [T name].
Proof. exact last_name_unchecked. Qed.
Print Assumptions c50_last_refuted.
(** i386: a call displayed as connect() does not pass the filter "connect". *)
Theorem c50_socketcall_refuted : exists regs view c c' o only, new_syscall linux_i386 regs = Ok c /\
  enter linux_i386 no_names repr_ascii (syscall_options plain) view (Ok 0) regs c = Ok c' /\ f_name (c_func c') = T "connect" /\
  parse_filter linux_i386 o = Ok (inl only) /\ In (T "connect") only /\ ignoreSyscall o only c = true.
Proof. exact connect_ignored. Qed.
Print Assumptions c50_socketcall_refuted.
Example c50_ex :
  accepted "close, open"%string = Some [T "close"; T "open"] /\
  lines (trace_of plain [T "close"; T "open"] closes (scripted close_exit)) =
    [T "execve(/bin/true, ['/bin/true'], [/* 40 vars */]) = 100"; T "close(7)                                 = 0"; T "*** Process 100 exited with code 3 ***"] /\
  lines (trace_of plain [T "open"] closes (scripted close_exit)) =
    [T "execve(/bin/true, ['/bin/true'], [/* 40 vars */]) = 100"; T "*** Process 100 exited with code 3 ***"].
Proof. conjs; vm_compute; reflexivity. Qed.

(** ** C51 *)
(** A round of the loop that ends normally: nothing is resumed while waiting, then the answer to the event. *)
Theorem c51_round : forall p ns repr_fs errorcode strerror K stops o only f code st st' code',
  running_linux p = true -> round p ns repr_fs errorcode strerror K stops o only f code st = (st', Ret code') ->
  exists raised ev waited handled, t_seen st' = (raised, ev) :: t_seen st /\ made (t_dbg st) (t_dbg st') (waited ++ handled) /\
    filter resuming waited = [] /\ answered st (t_dbg st') raised ev (filter resuming handled).
Proof. exact round_resumes. Qed.
Print Assumptions c51_round.
(** fork() whose child ends before its first stop: the parent is waited for without having been resumed. *)
Theorem c51_fork_refuted : exists status early late, WIFSTOPPED status = true /\ WPTRACEEVENT status = PTRACE_EVENT_FORK /\
  nth_error lost_child (List.length early) = Some status /\ nth_error (early ++ KWait 100 0 :: late) (List.length early) = Some (KWait 100 0) /\
  requests (trace_of forking [] closes (scripted lost_child)) = early ++ KWait 100 0 :: late ++ [KWait 100 0] /\ filter resuming late = [].
Proof. exact parent_left. Qed.
Print Assumptions c51_fork_refuted.
(** A signal that comes instead of the SIGTRAP after execve() is lost and ends strace. *)
Theorem c51_execve_refuted : exists K stops n, let r := trace_of plain [] stops K in
  In (LError (XEvent (ProcessSignal 10 0))) (t_log (fst r)) /\ exit_status (snd r) = 1 /\
  filter resuming (skipn n (requests r)) = [KCont 0 100 9] /\ nth_error (requests r) n = Some (KWait 100 0).
Proof. exact execve_ends. Qed.
Print Assumptions c51_execve_refuted.
Example c51_ex :
  requests (trace_of plain [] closes (scripted close_exit)) =
    [KWait 100 0; KSetOptions 0 100 1; KSyscall 0 100 0; KWait 100 0; KSyscall 0 100 0; KWait 100 0; KSyscall 0 100 0; KWait 100 0] /\
  requests (trace_of plain [] closes (scripted segv)) =
    [KWait 100 0; KSetOptions 0 100 1; KSyscall 0 100 0; KWait 100 0; KDisplay 0 11; KSyscall 0 100 11; KWait 100 0].
Proof. conjs; vm_compute; reflexivity. Qed.

(** ** C81 *)
(** Whatever happens, strace ends by debugger.quit(), except when the display of the last call fails or exit() is called. *)
Theorem c81_quit : forall p ns repr_fs errorcode strerror K stops o only child rounds f st st1 r,
  runDebugger p ns repr_fs errorcode strerror K stops o only child rounds f st = (st1, r) ->
  let main := strace_main p ns repr_fs errorcode strerror K stops o only child rounds f st in
  (exists e, r = Raise (XErr e) /\ not_exception e = true /\ main = (st1, Raise (XErr e))) \/
  (exists id s c st2 x, r = Raise (XEvent (ProcessExit id s c)) /\ handle_exit p ns repr_fs stops o id s c st1 = (st2, Raise x) /\ main = (st2, Raise x)) \/
  (exists st2, t_dbg st2 = t_dbg st1 /\ fst main = fst (tdbg (quit K p f) st2) /\
     match snd (tdbg (quit K p f) st2) with
     | Ret _ => snd main = Ret (match r with Ret code => code | Raise x => Some (failure_code x) end)
     | Raise x => snd main = Raise x
     end).
Proof. exact main_ends. Qed.
Print Assumptions c81_quit.
(** At that moment, quit() signals only processes that are registered and that strace started. *)
Theorem c81_signals : forall p ns repr_fs errorcode strerror K stops o only child rounds f st1 r,
  running_linux p = true -> runDebugger p ns repr_fs errorcode strerror K stops o only child rounds f (start p) = (st1, r) ->
  exists new, made (t_dbg st1) (fst (quit K p f (t_dbg st1))) new /\
    forall c i, In c new -> signals_to i c = true -> registered (t_dbg st1) i /\ started (t_dbg st1) i.
Proof. exact run_quit. Qed.
Print Assumptions c81_signals.
(** and leaves none registered (in a clean state, when it succeeds). *)
Theorem c81_clears : forall p ns repr_fs errorcode strerror K stops o only child rounds f st1 r d',
  runDebugger p ns repr_fs errorcode strerror K stops o only child rounds f (start p) = (st1, r) -> clean (t_dbg st1) ->
  quit K p f (t_dbg st1) = (d', Ret tt) -> forall id, registered (t_dbg st1) id -> ~ registered d' id.
Proof. exact run_clears. Qed.
Print Assumptions c81_clears.
Example c81_ex : let run := run_of plain [] (fun _ _ => execve_stop 0) (scripted exec_signal) in
  snd run = Raise (XEvent (ProcessSignal 10 0)) /\ d_list (t_dbg (fst run)) = [0%nat] /\
  d_list (t_dbg (fst (trace_of plain [] (fun _ _ => execve_stop 0) (scripted exec_signal)))) = [].
Proof. cbv zeta. conjs; vm_compute; reflexivity. Qed.

(** ** C82 *)
(** The line of a call: prefixes, the call, the result from column 40. *)
Theorem c82_line : forall p o pid c t, syscall_line p o pid c t =
  shown_line (if s_show_pid o || s_fork o then Some (str_int pid) else None)
             (if s_show_ip o then Some (match c_instr_pointer c with Some ip => formatAddress p ip | None => T "NULL" end) else None)
             t (match c_result c with Some _ => Some (get (c_result_text c)) | None => None end).
Proof. exact line_shown_null. Qed.
Print Assumptions c82_line.
Theorem c82_display : forall p ns repr_fs stops o id c st st' c', displaySyscall p ns repr_fs stops o id c st = (st', Ret c') ->
  exists t line, shown c c' /\ format p ns repr_fs (syscall_options o) (st_view (the_stop stops st id)) (c_func c) = Ok (c_func c', t) /\
    line = syscall_line p o (pid_of st id) c' t /\ t_log st' = LSyscall id c' line :: t_log st /\ t_dbg st' = t_dbg st /\ t_sys st' = t_sys st.
Proof. exact display_shown. Qed.
Print Assumptions c82_display.
(** When a process ends inside a call, the call is shown (unless its entry was), then the end. *)
Theorem c82_end : forall p ns repr_fs stops o id s c st st', handle_exit p ns repr_fs stops o id s c st = (st', Ret tt) ->
  match ss_syscall (state_of st id) with
  | Some call => if ss_exit (state_of st id) && negb (s_enter o)
                 then exists call' line, shown call call' /\ t_log st' = LLine (T "*** " ++ exit_message ns (pid_of st id) s c ++ T " ***") :: LSyscall id call' line :: t_log st
                 else t_log st' = LLine (T "*** " ++ exit_message ns (pid_of st id) s c ++ T " ***") :: t_log st
  | None => t_log st' = LLine (T "*** " ++ exit_message ns (pid_of st id) s c ++ T " ***") :: t_log st
  end.
Proof. exact exit_shows. Qed.
Print Assumptions c82_end.
(** The lines about a new process and about an execution come first, whatever happens then. *)
Theorem c82_new : forall p K id st st' r, handle_new p K id st = (st', r) ->
  t_log st' = LNewProcess id (T "*** New process " ++ str_int (pid_of st id) ++ T " ***") :: t_log st.
Proof. exact new_line. Qed.
Print Assumptions c82_new.
Theorem c82_execution : forall p K id st st' r, handle_execution p K id st = (st', r) ->
  t_log st' = LLine (T "*** Process " ++ str_int (pid_of st id) ++ T " execution ***") :: t_log st.
Proof. exact execution_line. Qed.
Print Assumptions c82_execution.
Example c82_ex :
  lines (trace_of plain [] closes (scripted exit_inside)) =
    [T "execve(/bin/true, ['/bin/true'], [/* 40 vars */]) = 100"; T "close(7)"; T "*** Process 100 exited with code 3 ***"] /\
  lines (trace_of with_pid [] closes (scripted close_exit)) =
    [T "execve(/bin/true, ['/bin/true'], [/* 40 vars */]) = 100"; T "[100] close(7)                                 = 0"; T "*** Process 100 exited with code 3 ***"].
Proof. conjs; vm_compute; reflexivity. Qed.

(** ** C108 *)
(** The events of ptrace() that the options ask for are traced; nothing else changes. *)
Theorem c108_options : forall p o st, has_ptrace_events p = true -> exists d, setupDebugger p o st = (with_debugger st d, Ret tt) /\
  d_options d = Z.lor (d_options (t_dbg st)) (asked_events o) /\ d_trace_fork d = (d_trace_fork (t_dbg st) || s_fork o) /\
  d_trace_exec d = (d_trace_exec (t_dbg st) || s_trace_exec o) /\ d_trace_clone d = (d_trace_clone (t_dbg st) || s_trace_clone o) /\
  d_sysgood d = d_sysgood (t_dbg st) /\ d_procs d = d_procs (t_dbg st) /\ d_dict d = d_dict (t_dbg st) /\ d_list d = d_list (t_dbg st) /\ d_calls d = d_calls (t_dbg st).
Proof. exact setup_options. Qed.
Print Assumptions c108_options.
(** Where fork() can not be traced, --fork ends strace with a message and the status 1: no process is created, nothing is asked. *)
Theorem c108_fork : forall p ns repr_fs errorcode strerror K stops o only child st rounds f, s_fork o = true -> has_ptrace_events p = false ->
  let st1 := wrote (LLine (T "--fork option is not supported by your OS, sorry!")) st in
  let main := strace_main p ns repr_fs errorcode strerror K stops o only child rounds f st in
  main = (st1, Raise (XErr (ESystemExit 1))) /\ exit_status (snd main) = 1.
Proof. exact fork_unsupported. Qed.
Print Assumptions c108_fork.
(** The program is created and shown like a call of execve(). *)
Theorem c108_child : forall o child x l pid st, child = Ok pid -> s_program o = x :: l ->
  createChild o child st = (wrote (LLine (execve_line x (x :: l) pid)) st, Ret pid).
Proof. exact child_line. Qed.
Print Assumptions c108_child.
Theorem c108_child_error : forall o child e st, child = Err e -> createChild o child st = (st, Raise (XErr e)).
Proof. exact child_error. Qed.
Print Assumptions c108_child_error.
Theorem c108_child_empty : forall o child pid st, child = Ok pid -> s_program o = [] -> createChild o child st = (st, Raise (XErr EIndexError)).
Proof. exact child_empty. Qed.
Print Assumptions c108_child_empty.
(** --pid: the process is announced and attached; a failure of ptrace() or the end of the process is reported. *)
Theorem c108_attach : forall p K o child f pid st, s_pid o = Some pid -> pid <> 0 ->
  let st1 := wrote (LLine (T "Attach process " ++ str_int pid)) st in
  adds st1 (addProcess K p f pid false None false (t_dbg st)) (createProcess p K o child f st).
Proof. exact create_attach. Qed.
Print Assumptions c108_attach.
(** Otherwise the program is created; it is already attached. *)
Theorem c108_program : forall p K o child f st st1 pid, (forall n, s_pid o = Some n -> n = 0) -> createChild o child st = (st1, Ret pid) ->
  adds st1 (addProcess K p f pid true None false (t_dbg st1)) (createProcess p K o child f st).
Proof. exact create_program. Qed.
Print Assumptions c108_program.
Theorem c108_program_error : forall p K o child f st st1 x, (forall n, s_pid o = Some n -> n = 0) -> createChild o child st = (st1, Raise x) ->
  createProcess p K o child f st = (st1, Raise x).
Proof. exact create_fails. Qed.
Print Assumptions c108_program_error.
(** Ctrl-C is reported, the processes are released, the code is 1. *)
Theorem c108_interrupted : forall p ns repr_fs errorcode strerror K stops o only child rounds f st st1,
  runDebugger p ns repr_fs errorcode strerror K stops o only child rounds f st = (st1, Raise (XErr EKeyboardInterrupt)) ->
  let st2 := wrote (LLine (T "Interrupted.")) st1 in
  forall d, quit K p f (t_dbg st2) = (d, Ret tt) ->
  strace_main p ns repr_fs errorcode strerror K stops o only child rounds f st = (with_debugger st2 d, Ret (Some 1)).
Proof. exact interrupted. Qed.
Print Assumptions c108_interrupted.
Example c108_ex :
  has_ptrace_events linux_x86_64 = true /\ asked_events forking = 6 /\ has_ptrace_events freebsd_x86_64 = false /\ s_fork forking = true /\
  s_pid attaching = Some 100 /\ s_pid plain = None /\ snd (createProcess linux_x86_64 (scripted close_exit) plain (Ok 100) 10 (start linux_x86_64)) = Ret (Some 0%nat) /\
  snd (createProcess linux_x86_64 refuse_attach attaching (Ok 100) 10 (start linux_x86_64)) = Ret None /\
  t_log (fst (createProcess linux_x86_64 (scripted close_exit) plain (Ok 100) 10 (start linux_x86_64))) = [LLine (T "execve(/bin/true, ['/bin/true'], [/* 40 vars */]) = 100")].
Proof. conjs; vm_compute; reflexivity. Qed.
(** Ctrl-C while the child is being created *)
Example c108_interrupted_ex :
  let run := runDebugger linux_x86_64 no_names repr_ascii ENOENT_only strerror_ex (scripted close_exit) closes plain [] (Err EKeyboardInterrupt) 10 10 (start linux_x86_64) in
  snd run = Raise (XErr EKeyboardInterrupt) /\
  snd (quit (scripted close_exit) linux_x86_64 10 (t_dbg (wrote (LLine (T "Interrupted.")) (fst run)))) = Ret tt.
Proof. cbv zeta. conjs; vm_compute; reflexivity. Qed.
