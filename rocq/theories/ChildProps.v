(** * ChildProps: C54, C55, C89, C90, the creation of the traced program. *)
From Coq Require Import ZArith List Ascii String Bool Sorted.
From Verif Require Import PyBase ChildModel ChildSpec ChildProofs ChildProofs2 ChildProofs3 ChildProofs4.
Import ListNotations.
Open Scope Z_scope.

(** ** C54: the file descriptors of the child *)
Theorem c54_closed : forall os MAXFD w pass st, exists st', close_others os MAXFD w pass st = (st', Ret tt) /\
  (forall fd, must_close MAXFD w pass fd -> c_fds st' fd = None) /\ (forall fd, ~ must_close MAXFD w pass fd -> c_fds st' fd = c_fds st fd) /\
  c_calls st' = rev (map CClose (to_close MAXFD w pass)) ++ c_calls st.
Proof. exact closed_exactly. Qed.
Print Assumptions c54_closed.
Theorem c54_once : forall MAXFD w pass, StronglySorted Z.lt (to_close MAXFD w pass) /\ forall fd, In fd (to_close MAXFD w pass) <-> must_close MAXFD w pass fd.
Proof. intros MAXFD w pass. exact (conj (to_close_sorted MAXFD w pass) (to_close_in MAXFD w pass)). Qed.
Print Assumptions c54_once.
Example c54_closed_ex : map (c_fds (fst (close_others (the_os None None []) 256 4 [7] (before std_fds)))) [0; 1; 2; 5; 7; 300] =
  [Some (Desc 0 (FFile 0)); Some (Desc 0 (FFile 1)); Some (Desc 0 (FFile 2)); None; Some (Desc 0 (FFile 7)); Some (Desc 0 (FFile 300))].
Proof. vm_compute. reflexivity. Qed.
(** What the executed program has: the passed descriptors, inheritable; none of the others from 3 to MAXFD - 1; the rest *)
Theorem c54_descriptors : forall c, good_start c -> executable c -> cr_no_stdout c = false -> closing c = true -> exists st, run_child c = (st, Execed (cr_arguments c) (cr_env c)) /\
  (forall fd, In fd (cr_pass_fds c) -> exists d, cr_fds c fd = Some d /\ c_fds st fd = Some (Desc (2 * (d_flags d / 2)) (d_file d))) /\
  (forall fd, 3 <= fd < cr_maxfd c -> ~ In fd (cr_pass_fds c) -> c_fds st fd = None) /\
  (forall fd, fd < 3 \/ cr_maxfd c <= fd -> ~ In fd (cr_pass_fds c) -> c_fds st fd = inherited (cr_fds c fd)) /\
  c_fds st (cr_read c) = None /\ c_fds st (cr_write c) = None.
Proof. exact exec_descriptors. Qed.
Print Assumptions c54_descriptors.
Example c54_descriptors_ex : good_start (ls None None [] false true [5; 300]) /\ executable (ls None None [] false true [5; 300]) /\
  map (c_fds (fst (run_child (ls None None [] false true [5; 300])))) [2; 3; 4; 5; 7; 300] = [Some (Desc 0 (FFile 2)); None; None; Some (Desc 0 (FFile 5)); None; Some (Desc 0 (FFile 300))].
Proof. split; [apply ls_start; repeat (apply Forall_cons; [cbn; auto 10|]); apply Forall_nil|]. split; [split; [discriminate|reflexivity]|]. vm_compute. reflexivity. Qed.
(** Without close_fds nothing is closed but the pipe *)
Theorem c54_kept : forall c, good_start c -> executable c -> cr_no_stdout c = false -> exists st, run_child c = (st, Execed (cr_arguments c) (cr_env c)) /\
  (forall x, c_fds st x = inherited (child_fds (cr_maxfd c) (cr_fds c) (cr_read c) (cr_write c) (closing c) (cr_pass_fds c) x)) /\
  rev (c_calls st) = child_calls (cr_maxfd c) (cr_read c) (cr_write c) (closing c) (cr_pass_fds c) ++ [CExec (cr_arguments c) (cr_env c)] /\ c_pipe st = [].
Proof. exact run_exec. Qed.
Print Assumptions c54_kept.
Example c54_kept_ex : map (c_fds (fst (run_child (ls None None [] false false [])))) [2; 3; 4; 5; 7; 300] = [Some (Desc 0 (FFile 2)); None; None; None; Some (Desc 0 (FFile 7)); Some (Desc 0 (FFile 300))].
Proof. vm_compute. reflexivity. Qed.
(** Whatever happens at the execution, these are the calls; afterwards only the standard output and error and the null device are closed *)
Theorem c54_calls : forall c, good_start c -> exists l, rev (c_calls (fst (run_child c))) = child_calls (cr_maxfd c) (cr_read c) (cr_write c) (closing c) (cr_pass_fds c) ++ l /\
  forall fd, In (CClose fd) l -> cr_no_stdout c = true /\ (fd = 1 \/ fd = 2 \/ co_null (cr_child c) = inl fd).
Proof. exact run_calls. Qed.
Print Assumptions c54_calls.
Example c54_calls_ex : rev (c_calls (fst (run_child (ls None (Some enoent) [] false false [5])))) =
  [CPipe; CSetCloexec 4; CFork; CClose 3; CTraceMe; CInheritable 5] ++ map CClose (to_close 256 4 [5]) ++ [CExec [T "ls"; T "-l"] None; CWrite 4 (T "r[Errno 2] No such file or directory"); CWrite 4 (T "r[Errno 2] No such file or directory")].
Proof. vm_compute. reflexivity. Qed.
Theorem c54_pass_implies : forall os MAXFD pipe fork arguments no_stdout env pass st, pass <> [] ->
  createChild os MAXFD pipe fork arguments no_stdout env false pass st = createChild os MAXFD pipe fork arguments no_stdout env true pass st.
Proof. exact pass_closes. Qed.
Print Assumptions c54_pass_implies.

(** The flag is added, the other flags and descriptors stay *)
Theorem c54_cloexec : forall fd st d, c_fds st fd = Some d -> exists st', set_cloexec_flag fd st = (st', Ret tt) /\
  c_fds st' fd = Some (Desc (if Z.odd (d_flags d) then d_flags d else d_flags d + 1) (d_file d)) /\ forall x, x <> fd -> c_fds st' x = c_fds st x.
Proof. exact cloexec_flag. Qed.
Print Assumptions c54_cloexec.
Example c54_cloexec_ex : c_fds (fst (set_cloexec_flag 7 (before std_fds))) 7 = Some (Desc 1 (FFile 7)) /\ c_fds (fst (set_cloexec_flag 5 (before std_fds))) 5 = Some (Desc 1 (FFile 5)).
Proof. split; reflexivity. Qed.

(** ** C55: errors of the child reach the parent *)
Theorem c55_both_partial : forall c, sound_creation c -> good_start c ->
  (snd (run_child c) = Execed (cr_arguments c) (cr_env c) /\ snd (run_parent c) = Ret (cr_pid c) /\ ~ In (CWaitpid (cr_pid c) 0) (c_calls (fst (run_parent c)))) \/
  (exists x, snd (run_child c) = Raise (PyExn (ESystemExit 255) (T "255")) /\ snd (run_parent c) = Raise x /\ hd_error (c_calls (fst (run_parent c))) = Some (CWaitpid (cr_pid c) 0)).
Proof. exact run_both. Qed.
Print Assumptions c55_both_partial.
Example c55_both_partial_ex : sound_creation (ls None None [] true true [5]) /\ good_start (ls None None [] true true [5]).
Proof. split; [apply ls_sound; vm_compute; reflexivity|]. apply ls_start; repeat (apply Forall_cons; [cbn; auto 10|]); apply Forall_nil. Qed.
Theorem c55_failure : forall c x, sound_creation c -> good_start c -> cr_no_stdout c = false ->
  (cr_arguments c = [] /\ x = T "list index out of range" \/ cr_arguments c <> [] /\ exists e, co_exec (cr_child c) (cr_arguments c) (cr_env c) = Some (PyExn e x) /\ is_exception e = true) ->
  snd (run_child c) = Raise (PyExn (ESystemExit 255) (T "255")) /\ snd (run_parent c) = Raise (PyExn EChildError x) /\ hd_error (c_calls (fst (run_parent c))) = Some (CWaitpid (cr_pid c) 0).
Proof. exact run_fails. Qed.
Print Assumptions c55_failure.
Example c55_failure_ex : let c := ls None (Some enoent) (T "r[Errno 2] No such file or directory") false true [] in
  sound_creation c /\ good_start c /\
  snd (run_parent c) = Raise (PyExn EChildError (T "[Errno 2] No such file or directory")) /\
  rev (c_calls (fst (run_parent c))) = [CPipe; CSetCloexec 4; CFork; CClose 4; CRead 3 1048576; CRead 3 1048576; CClose 3; CWaitpid 42 0; CWaitpid 42 0; CWaitpid 42 0].
Proof. split; [apply ls_sound; vm_compute; reflexivity|]. split; [apply ls_start, Forall_nil|]. split; vm_compute; reflexivity. Qed.
(** What is no error (an interruption, exit()) is not turned into a ChildError *)
Theorem c55_stops : forall c e m, sound_creation c -> good_start c -> cr_no_stdout c = false -> cr_arguments c <> [] ->
  co_exec (cr_child c) (cr_arguments c) (cr_env c) = Some (PyExn e m) -> e = EKeyboardInterrupt \/ (exists code, e = ESystemExit code) ->
  snd (run_child c) = Raise (PyExn (ESystemExit 255) (T "255")) /\ snd (run_parent c) = Raise (PyExn e m) /\ hd_error (c_calls (fst (run_parent c))) = Some (CWaitpid (cr_pid c) 0).
Proof. exact run_stops. Qed.
Print Assumptions c55_stops.
Example c55_stops_ex : let c := ls None (Some ctrl_c) (pickle ctrl_c) false true [] in sound_creation c /\ good_start c /\ snd (run_parent c) = Raise ctrl_c.
Proof. split; [apply ls_sound; vm_compute; reflexivity|]. split; [apply ls_start, Forall_nil|]. vm_compute. reflexivity. Qed.
Theorem c55_success : forall c, sound_creation c -> good_start c -> executable c -> cr_no_stdout c = false ->
  snd (run_child c) = Execed (cr_arguments c) (cr_env c) /\ snd (run_parent c) = Ret (cr_pid c).
Proof. exact run_works. Qed.
Print Assumptions c55_success.
Example c55_success_ex : sound_creation (ls None None [] false true []) /\ executable (ls None None [] false true []) /\ snd (run_parent (ls None None [] false true [])) = Ret 42.
Proof. split; [apply ls_sound; vm_compute; reflexivity|]. split; [split; [discriminate|reflexivity]|]. vm_compute. reflexivity. Qed.
(** The child never comes back with a result, whatever happens *)
Theorem c55_never_returns : forall os MAXFD pipe arguments no_stdout env close_fds pass t z,
  snd (createChild os MAXFD pipe (inl 0) arguments no_stdout env close_fds pass (before t)) <> Ret z.
Proof. exact never_ret. Qed.
Print Assumptions c55_never_returns.
(** Interrupted calls are tried again, as often as needed; other errors are not *)
Theorem c55_retry_read : forall fd size k data rest st, exists st', read_no_intr fd size (interrupted_read k data rest) st = (st', Ret data) /\
  c_calls st' = repeat (CRead fd size) (S k) ++ c_calls st /\ c_fds st' = c_fds st /\ c_pipe st' = c_pipe st.
Proof. exact retry_read. Qed.
Print Assumptions c55_retry_read.
Theorem c55_retry_waitpid : forall pid options k rest st, exists st', waitpid_no_intr pid options (interrupted k rest) st = (st', Ret tt) /\
  c_calls st' = repeat (CWaitpid pid options) (S k) ++ c_calls st /\ c_fds st' = c_fds st /\ c_pipe st' = c_pipe st.
Proof. exact retry_wait. Qed.
Print Assumptions c55_retry_waitpid.
Theorem c55_retry_write : forall fd data k rest st, exists st', write_no_intr fd data (interrupted k rest) st = (st', Ret tt) /\
  c_calls st' = repeat (CWrite fd data) (S k) ++ c_calls st /\ c_fds st' = c_fds st /\ c_pipe st' = c_pipe st ++ data.
Proof. exact retry_write. Qed.
Print Assumptions c55_retry_write.
Theorem c55_other_error : forall fd size k e rest st, e <> EINTR -> exists st', read_no_intr fd size (repeat (inr EINTR) k ++ inr e :: rest) st = (st', Raise (oserror e)) /\ c_calls st' = repeat (CRead fd size) (S k) ++ c_calls st.
Proof. exact other_read. Qed.
Print Assumptions c55_other_error.
Theorem c55_other_wait : forall pid options k e rest st, e <> EINTR -> exists st', waitpid_no_intr pid options (repeat (Some EINTR) k ++ Some e :: rest) st = (st', Raise (oserror e)) /\
  c_calls st' = repeat (CWaitpid pid options) (S k) ++ c_calls st.
Proof. exact other_wait. Qed.
Print Assumptions c55_other_wait.
Theorem c55_other_write : forall fd data k e rest st, e <> EINTR -> exists st', write_no_intr fd data (repeat (Some EINTR) k ++ Some e :: rest) st = (st', Raise (oserror e)) /\
  c_calls st' = repeat (CWrite fd data) (S k) ++ c_calls st /\ c_pipe st' = c_pipe st.
Proof. exact other_write. Qed.
Print Assumptions c55_other_write.
Example c55_other_error_ex : EBADF <> EINTR.
Proof. discriminate. Qed.
(** When ptrace(PTRACE_TRACEME) fails, or a descriptor to pass is not open, the exception goes up into the caller's code in
    the child, nothing is written for the parent, and the parent gets a process identifier as if all was well *)
Theorem c55_traceme_refuted : exists c, sound_creation c /\ cr_pid c = 42 /\ co_traceme (cr_child c) = Some (PyExn (EPtraceError (Some 1)) (T "ptrace(cmd=0) error #1: Operation not permitted")) /\
  snd (run_child c) = Raise (PyExn EChildError (T "ptrace(cmd=0) error #1: Operation not permitted")) /\ snd (run_parent c) = Ret 42 /\ c_pipe (fst (run_child c)) = [].
Proof. exact traceme_wrong. Qed.
Print Assumptions c55_traceme_refuted.
Theorem c55_traceme : forall c e m, fresh_pipe (cr_fds c) (cr_read c) (cr_write c) -> co_close (cr_child c) (cr_read c) = None -> co_traceme (cr_child c) = Some (PyExn e m) ->
  exists st, run_child c = (st, Raise (match e with EPtraceError _ | EProcessError | EDebuggerError => PyExn EChildError m | _ => PyExn e m end)) /\
    c_calls st = [CTraceMe; CClose (cr_read c); CFork; CSetCloexec (cr_write c); CPipe] /\ c_pipe st = [].
Proof. exact traceme_fails. Qed.
Print Assumptions c55_traceme.
Example c55_traceme_ex : snd (run_child (ls (Some ctrl_c) None [] false true [])) = Raise ctrl_c.
Proof. vm_compute. reflexivity. Qed.
Theorem c55_passed_refuted : exists c, cr_pass_fds c = [9] /\ cr_fds c 9 = None /\ sound_creation c /\ snd (run_child c) = Raise (oserror EBADF) /\ snd (run_parent c) = Ret 42.
Proof. exact passed_wrong. Qed.
Print Assumptions c55_passed_refuted.

(** ** C89: no_stdout *)
Theorem c89_null_partial : forall c null, good_start c -> executable c -> cr_no_stdout c = true -> null_works c null -> null <> 1 -> null <> 2 ->
  exists st, run_child c = (st, Execed (cr_arguments c) (cr_env c)) /\ c_fds st 1 = Some (Desc 0 FNull) /\ c_fds st 2 = Some (Desc 0 FNull) /\ c_fds st null = None /\
  (forall x, x <> 1 -> x <> 2 -> x <> null -> c_fds st x = inherited (child_fds (cr_maxfd c) (cr_fds c) (cr_read c) (cr_write c) (closing c) (cr_pass_fds c) x)).
Proof. exact run_null. Qed.
Print Assumptions c89_null_partial.
Example c89_null_partial_ex : good_start (ls None None [] true true [5]) /\ null_works (ls None None [] true true [5]) 3 /\
  map (c_fds (fst (run_child (ls None None [] true true [5])))) [0; 1; 2; 3; 4; 5] = [Some (Desc 0 (FFile 0)); Some (Desc 0 FNull); Some (Desc 0 FNull); None; None; Some (Desc 0 (FFile 5))].
Proof. split; [apply ls_start; repeat (apply Forall_cons; [cbn; auto 10|]); apply Forall_nil|]. split; [split; [reflexivity|]; split; [reflexivity|]; split; reflexivity|]. vm_compute. reflexivity. Qed.
(** The null device can not be opened, or not be put in place of the standard output: the program gets no standard output and error *)
Theorem c89_fails : forall c f1 f2 x, good_start c -> executable c -> cr_no_stdout c = true -> cr_fds c 1 = Some f1 -> cr_fds c 2 = Some f2 ->
  co_close (cr_child c) 1 = None -> co_close (cr_child c) 2 = None -> (exists errno m, x = PyExn (EOSError errno) m) ->
  co_null (cr_child c) = inr x \/ (exists null, co_null (cr_child c) = inl null /\ null <> 1 /\ null <> 2 /\ cr_fds c null = None /\ null <> cr_write c /\ co_dup2 (cr_child c) null 1 = Some x) ->
  exists st, run_child c = (st, Execed (cr_arguments c) (cr_env c)) /\ c_fds st 1 = None /\ c_fds st 2 = None /\
  (forall x, x <> 1 -> x <> 2 -> c_fds st x = inherited (child_fds (cr_maxfd c) (cr_fds c) (cr_read c) (cr_write c) (closing c) (cr_pass_fds c) x)).
Proof. exact run_null_fails. Qed.
Print Assumptions c89_fails.
Example c89_fails_ex : map (c_fds (fst (run_child (ls_null (inr eacces) None [])))) [0; 1; 2; 3; 4; 5] = [Some (Desc 0 (FFile 0)); None; None; None; None; Some (Desc 0 (FFile 5))] /\
  map (c_fds (fst (run_child (ls_null (inl 6) (Some eacces) [])))) [0; 1; 2; 4; 5; 6] = [Some (Desc 0 (FFile 0)); None; None; None; Some (Desc 0 (FFile 5)); None].
Proof. split; vm_compute; reflexivity. Qed.
(** Anything but an OSError stops the child, and the parent raises it *)
Theorem c89_stops : forall c e m, sound_creation c -> good_start c -> cr_no_stdout c = true -> co_null (cr_child c) = inr (PyExn e m) -> (forall errno, e <> EOSError errno) ->
  snd (run_child c) = Raise (PyExn (ESystemExit 255) (T "255")) /\ snd (run_parent c) = Raise (PyExn e m) /\ hd_error (c_calls (fst (run_parent c))) = Some (CWaitpid (cr_pid c) 0).
Proof. exact run_null_stops. Qed.
Print Assumptions c89_stops.
Example c89_stops_ex : snd (run_parent (ls_null (inr ctrl_c) None (c_pipe (fst (run_child (ls_null (inr ctrl_c) None [])))))) = Raise ctrl_c.
Proof. vm_compute. reflexivity. Qed.
(** When the standard output is closed beforehand, the null device is opened as descriptor 1, and closed again *)
Theorem c89_closed_refuted : exists c, good_start c /\ executable c /\ cr_fds c 1 = None /\ null_works c 1 /\ snd (run_child c) = Execed [T "ls"] None /\ c_fds (fst (run_child c)) 1 = None.
Proof. exact (ex_intro _ no_output null_wrong). Qed.
Print Assumptions c89_closed_refuted.

(** ** C90: the descriptors of the parent *)
Theorem c90_parent_partial : forall c, sound_creation c -> forall fd, c_fds (fst (run_parent c)) fd = cr_fds c fd.
Proof. exact parent_fds. Qed.
Print Assumptions c90_parent_partial.
Example c90_parent_partial_ex : sound_creation (ls None (Some enoent) (T "r[Errno 2] No such file or directory") false true []) /\ map (c_fds (fst (run_parent (ls None (Some enoent) (T "rno") false true [])))) [2; 3; 4; 5] = [Some (Desc 0 (FFile 2)); None; None; Some (Desc 1 (FFile 5))].
Proof. split; [apply ls_sound|]; vm_compute; reflexivity. Qed.
(** When fork() fails, both ends of the pipe stay open *)
Theorem c90_fork_refuted : exists st x, createChild (the_os None None []) 256 (inl (3, 4)) (inr (PyExn (EOSError 11) (T "Resource temporarily unavailable"))) [T "ls"] false None true [] (before std_fds) = (st, Raise x) /\
  std_fds 3 = None /\ std_fds 4 = None /\ c_fds st 3 = Some (Desc 1 (FPipe false)) /\ c_fds st 4 = Some (Desc 1 (FPipe true)).
Proof. exact fork_wrong. Qed.
Print Assumptions c90_fork_refuted.
