(** * StraceProofs4: examples of runs of strace.py. *)
From Coq Require Import ZArith List Ascii String Bool Lia.
From Verif Require Import PyBase PyFacts Platform IntModel RegModel SigModel TabModel TabSpec TabProofs ToolsModel ArgModel ArgProofs3 DbgModel DbgSpec DbgFinal2
  SysModel SysSpec SysProofs SysProofs2 SysProofs3 ProcModel StraceModel StraceSpec StraceProofs StraceProofs2 StraceProofs3.
Import ListNotations.
Open Scope Z_scope.

Ltac conjs := repeat match goal with |- _ /\ _ => split end.

Definition plain : soptions := SOptions None [T "/bin/true"] false false false 300 20 false None false None false false false false false false false.
Definition attaching : soptions := SOptions (Some 100) [] false false false 300 20 false None false None false false false false false false false.
Definition forking : soptions := SOptions None [T "/bin/true"] false false false 300 20 false None false None false false false false true false false.
Definition closes (_ _ : nat) : stop := close_stop 0.
Definition trace_of (o : soptions) (only : list text) (stops : nat -> nat -> stop) (K : dkernel) : tstate * out (option Z) :=
  strace_main linux_x86_64 no_names repr_ascii ENOENT_only strerror_ex K stops o only (Ok 100) 10 10 (start linux_x86_64).
Definition run_of (o : soptions) (only : list text) (stops : nat -> nat -> stop) (K : dkernel) : tstate * out (option Z) :=
  runDebugger linux_x86_64 no_names repr_ascii ENOENT_only strerror_ex K stops o only (Ok 100) 10 10 (start linux_x86_64).
Definition with_pid : soptions := SOptions None [T "/bin/true"] false false false 300 20 false None false None false false true false false false false.
Definition shown_text (l : tline) : text := match l with LSyscall _ _ t | LNewProcess _ t | LLine t => t | LError _ => T "error" end.
Definition lines (r : tstate * out (option Z)) : list text := rev (map shown_text (t_log (fst r))).
Definition requests (r : tstate * out (option Z)) : list kcall := rev (d_calls (t_dbg (fst r))).
Definition fork_stop : Z := 0x1057f.

(** close(7), then exit(3) *)
Definition close_exit : list Z := [stop_by 5; 0; 0; stop_by 133; 0; stop_by 133; 0; encode (Exited 3)].
Definition exit_inside : list Z := [stop_by 5; 0; 0; stop_by 133; 0; encode (Exited 3)].
Definition segv : list Z := [stop_by 5; 0; 0; stop_by 11; 0; 0; 11].
(** the signal 10 is handled, then the process is killed *)
Definition killed : list Z := [stop_by 5; 0; 0; stop_by 10; 0; 0; 9].
Definition killed_early : list Z := [stop_by 5; 0; 0; 9].
Lemma kill_unseen :
  t_seen (fst (trace_of plain [] closes (scripted killed))) = [(true, ProcessExit 0 (Some 9) None); (true, ProcessSignal 10 0)] /\
  exit_status (snd (trace_of plain [] closes (scripted killed))) = 138 /\
  t_seen (fst (trace_of plain [] closes (scripted killed_early))) = [(true, ProcessExit 0 (Some 9) None)] /\
  exit_status (snd (trace_of plain [] closes (scripted killed_early))) = 0.
Proof. conjs; vm_compute; reflexivity. Qed.
Definition refuse_attach : dkernel := refusing (fun c => match c with KAttach _ => true | _ => false end) [].
Lemma attach_unseen : s_pid attaching = Some 100 /\ requests (trace_of attaching [] closes refuse_attach) = [KAttach 100] /\ exit_status (snd (trace_of attaching [] closes refuse_attach)) = 0.
Proof. conjs; vm_compute; reflexivity. Qed.
(** fork(); the parent exits with 3, then the child with 1 *)
Definition two_processes : list Z := [stop_by 5; 0; 0; fork_stop; 0; stop_by 19; 0; 0; 0; encode (Exited 3); encode (Exited 1)].
Lemma child_overrides :
  t_seen (fst (trace_of forking [] closes (scripted two_processes))) =
    [(true, ProcessExit 1 None (Some 1)); (true, ProcessExit 0 None (Some 3)); (true, NewProcessEvent 1)] /\
  exit_status (snd (trace_of forking [] closes (scripted two_processes))) = 1.
Proof. conjs; vm_compute; reflexivity. Qed.
(** fork(); the child ends before its first stop *)
Definition lost_child : list Z := [stop_by 5; 0; 0; fork_stop; 0; encode (Exited 1)].
Lemma parent_forgotten : let r := trace_of forking [] closes (scripted lost_child) in
  nth_error lost_child 3 = Some fork_stop /\ WIFSTOPPED fork_stop = true /\ WPTRACEEVENT fork_stop = PTRACE_EVENT_FORK /\
  requests r = [KWait 100 0; KSetOptions 0 100 7; KSyscall 0 100 0; KWait 100 0; KEventMsg 0 100; KWait 200 0; KWait 100 0].
Proof. cbv zeta. conjs; vm_compute; reflexivity. Qed.
(** a signal comes instead of the SIGTRAP of execve() *)
Definition exec_signal : list Z := [stop_by 5; 0; 0; stop_by 133; 0; stop_by 133; 0; stop_by 10; 0; 9].
Lemma exec_signal_ends : let r := trace_of plain [] (fun _ _ => execve_stop 0) (scripted exec_signal) in
  requests r = [KWait 100 0; KSetOptions 0 100 1; KSyscall 0 100 0; KWait 100 0; KSyscall 0 100 0; KWait 100 0; KSyscall 0 100 0; KWait 100 0; KCont 0 100 9; KWait 100 0] /\
  In (LError (XEvent (ProcessSignal 10 0))) (t_log (fst r)) /\ exit_status (snd r) = 1.
Proof. cbv zeta. conjs; [vm_compute; reflexivity|vm_compute; tauto|vm_compute; reflexivity]. Qed.

(** ** Filters *)
Definition filtered (s : string) : soptions := SOptions None [T "/bin/true"] false false false 300 20 false None false (Some (T s)) false false false false false false false.
Definition accepted (s : string) : option (list text) := match parse_filter linux_x86_64 (filtered s) with Ok (inl l) => Some l | _ => None end.
Lemma last_unknown : ~ (exists number, has_number linux_x86_64 number (T "opne")) /\ accepted "close,opne"%string = Some [T "close"; T "opne"] /\ accepted "opne"%string = Some [T "opne"].
Proof.
  split; [|split; vm_compute; reflexivity]. intros (n & names & E & H). assert (existsb (fun e => text_eqb (snd e) (T "opne")) names = true) as Hx.
  { apply existsb_exists. exists (n, T "opne"). split; [exact H|apply text_eqb_refl]. }
  assert (match SYSCALL_NAMES linux_x86_64 with Ok t => existsb (fun e => text_eqb (snd e) (T "opne")) t | Err _ => true end = false) as Hn by (vm_compute; reflexivity).
  rewrite E, Hx in Hn. discriminate Hn.
Qed.
(** On i386 socketcall(SYS_CONNECT) is shown as connect(), but the filter sees "socketcall". *)
Definition connect_regs : registers := regs_of (combine (T "orig_eax" :: abi_arguments I386) [102; 3; 4096; 0; 0; 0; 0]).
Definition zeros : view := View (fun _ n => Ok (repeat Ascii.zero (Z.to_nat n))) (fun _ => Ok 0) (fun _ _ => Err (EPtraceError (Some 5))).
Lemma socketcall_filtered : exists c c', new_syscall linux_i386 connect_regs = Ok c /\
  enter linux_i386 no_names repr_ascii (syscall_options plain) zeros (Ok 0) connect_regs c = Ok c' /\ f_name (c_func c') = T "connect" /\
  (match parse_filter linux_i386 (filtered "connect"%string) with Ok (inl l) => l = [T "connect"] /\ ignoreSyscall (filtered "connect"%string) l c = true | _ => False end).
Proof.
  destruct (new_syscall linux_i386 connect_regs) as [c|] eqn:E; [|vm_compute in E; discriminate E]. exists c.
  destruct (enter linux_i386 no_names repr_ascii (syscall_options plain) zeros (Ok 0) connect_regs c) as [c'|] eqn:E2.
  - exists c'. vm_compute in E. injection E as <-. vm_compute in E2. injection E2 as <-. split; [reflexivity|]. split; [reflexivity|]. split; [vm_compute; reflexivity|vm_compute; auto].
  - exfalso. vm_compute in E. injection E as <-. vm_compute in E2. discriminate E2.
Qed.

(** ** As stated *)
Lemma kill_status : exists K K' early rest,
  t_seen (fst (trace_of plain [] closes K)) = (true, ProcessExit 0 (Some 9) None) :: early /\ exit_status (snd (trace_of plain [] closes K)) <> 128 + 9 /\
  t_seen (fst (trace_of plain [] closes K')) = (true, ProcessExit 0 (Some 9) None) :: rest /\ exit_status (snd (trace_of plain [] closes K')) = 0.
Proof. exists (scripted killed), (scripted killed_early), [(true, ProcessSignal 10 0)], []. destruct kill_unseen as (H1 & H2 & H3 & H4). split; [exact H1|]. split; [|split; [exact H3|exact H4]]. intros E. pose proof (eq_trans (eq_sym H2) E) as Hx. discriminate Hx. Qed.
Lemma attach_status : exists o K, s_pid o = Some 100 /\ requests (trace_of o [] closes K) = [KAttach 100] /\ exit_status (snd (trace_of o [] closes K)) = 0.
Proof. exists attaching, refuse_attach. exact attach_unseen. Qed.
Lemma fork_status : exists o K rest, t_seen (fst (trace_of o [] closes K)) = (true, ProcessExit 1 None (Some 1)) :: (true, ProcessExit 0 None (Some 3)) :: rest /\
  exit_status (snd (trace_of o [] closes K)) = 1.
Proof. exists forking, (scripted two_processes), [(true, NewProcessEvent 1)]. exact child_overrides. Qed.
Lemma main_selected : forall p ns repr_fs errorcode strerror K stops o only child rounds f st' r,
  strace_main p ns repr_fs errorcode strerror K stops o only child rounds f (start p) = (st', r) ->
  forall after before id c t, t_log st' = after ++ LSyscall id c t :: before -> known_process before id ->
  exists name, call_name p (c_number c) name /\ selected o only name.
Proof. intros p ns repr_fs errorcode strerror K stops o only child rounds f st' r H. apply main_good in H as [_ H]. exact H. Qed.
Lemma last_name_unchecked : exists name, ~ (exists number, has_number linux_x86_64 number (T name)) /\
  accepted ("close," ++ name)%string = Some [T "close"; T name] /\ accepted name = Some [T name].
Proof. exists "opne"%string. exact last_unknown. Qed.
Lemma connect_ignored : exists regs view c c' o only, new_syscall linux_i386 regs = Ok c /\
  enter linux_i386 no_names repr_ascii (syscall_options plain) view (Ok 0) regs c = Ok c' /\ f_name (c_func c') = T "connect" /\
  parse_filter linux_i386 o = Ok (inl only) /\ In (T "connect") only /\ ignoreSyscall o only c = true.
Proof.
  destruct socketcall_filtered as (c & c' & H1 & H2 & H3 & H4). exists connect_regs, zeros, c, c', (filtered "connect"%string).
  destruct (parse_filter linux_i386 (filtered "connect"%string)) as [[l|l]|e]; try contradiction. exists l. destruct H4 as [-> H4]. split; [exact H1|]. split; [exact H2|]. split; [exact H3|]. split; [reflexivity|]. split; [left; reflexivity|exact H4].
Qed.
Lemma parent_left : exists status early late, WIFSTOPPED status = true /\ WPTRACEEVENT status = PTRACE_EVENT_FORK /\
  nth_error lost_child (List.length early) = Some status /\ nth_error (early ++ KWait 100 0 :: late) (List.length early) = Some (KWait 100 0) /\
  requests (trace_of forking [] closes (scripted lost_child)) = early ++ KWait 100 0 :: late ++ [KWait 100 0] /\ filter resuming late = [].
Proof.
  destruct parent_forgotten as (H1 & H2 & H3 & H4). exists fork_stop, [KWait 100 0; KSetOptions 0 100 7; KSyscall 0 100 0], [KEventMsg 0 100; KWait 200 0].
  split; [exact H2|]. split; [exact H3|]. split; [exact H1|]. split; [reflexivity|]. split; [exact H4|reflexivity].
Qed.
Lemma execve_ends : exists K stops n, let r := trace_of plain [] stops K in
  In (LError (XEvent (ProcessSignal 10 0))) (t_log (fst r)) /\ exit_status (snd r) = 1 /\
  filter resuming (skipn n (requests r)) = [KCont 0 100 9] /\ nth_error (requests r) n = Some (KWait 100 0).
Proof. exists (scripted exec_signal), (fun _ _ => execve_stop 0), 7%nat. cbv zeta. destruct exec_signal_ends as (H1 & H2 & H3). split; [exact H2|]. split; [exact H3|]. rewrite H1. split; reflexivity. Qed.
