(** * StraceProofs5: start, end and messages of strace.py (C50, C82, C108). *)
From Coq Require Import ZArith List Ascii String Bool Lia.
From Verif Require Import PyBase PyFacts Platform IntModel RegModel SigModel TabModel TabSpec ToolsModel ArgModel DbgModel DbgSpec
  SysModel SysSpec ProcModel StraceModel StraceSpec StraceProofs StraceProofs2 StraceProofs3.
Import ListNotations.
Open Scope Z_scope.

Section Create.
  Context (p : platform) (K : dkernel) (o : soptions) (child : res Z).

  Lemma child_line x l pid st : child = Ok pid -> s_program o = x :: l -> createChild o child st = (wrote (LLine (execve_line x (x :: l) pid)) st, Ret pid).
  Proof.
    intros H1 H2. unfold createChild, tbind, tres. rewrite H1, H2. unfold tlog, tret, wrote, execve_line, repr_list. cbn [fst snd].
    do 3 f_equal. f_equal. rewrite <- !app_assoc. reflexivity.
  Qed.
  Lemma child_error e st : child = Err e -> createChild o child st = (st, Raise (XErr e)).
  Proof. intros H. unfold createChild, tbind, tres. now rewrite H. Qed.
  Lemma child_empty pid st : child = Ok pid -> s_program o = [] -> createChild o child st = (st, Raise (XErr EIndexError)).
  Proof. intros H H'. unfold createChild, tbind, tres. now rewrite H, H'. Qed.

  Lemma errno_added e : ptrace_errno e = None -> ~ not_added (XErr e).
  Proof. destruct e; cbn; intros H; try discriminate H; tauto. Qed.
  Lemma errno_added2 e n : ptrace_errno e = Some n -> not_added (XErr e).
  Proof. destruct e; cbn; intros H; try discriminate H; exact I. Qed.
  Lemma adds_try f pid att st :
    adds st (addProcess K p f pid att None false (t_dbg st))
      (ttry (id <~ tdbg (addProcess K p f pid att None false); tret (Some id))
         (fun x => match x with
                   | XEvent (ProcessExit _ _ _) => _ <~ tlog (LError x); tret None
                   | XErr e => match ptrace_errno e with
                               | Some _ => _ <~ tlog (LError x); tret None
                               | None => tthrow x
                               end
                   | x => tthrow x
                   end) st).
  Proof.
    unfold ttry, tbind, tdbg. destruct (addProcess K p f pid att None false (t_dbg st)) as [d [id|x]]; cbn [fst snd].
    - apply adds_process.
    - destruct x as [e|ev].
      + destruct (ptrace_errno e) as [n|] eqn:E; [apply (adds_report st d (XErr e)); now apply errno_added2 in E|apply (adds_error st d (XErr e)); now apply errno_added].
      + destruct ev; try (apply (adds_error st d (XEvent _)); cbn; tauto). apply (adds_report st d (XEvent _)). exact I.
  Qed.
  Lemma create_attach f pid st : s_pid o = Some pid -> pid <> 0 ->
    let st1 := wrote (LLine (T "Attach process " ++ str_int pid)) st in
    adds st1 (addProcess K p f pid false None false (t_dbg st)) (createProcess p K o child f st).
  Proof.
    intros H Hn. cbv zeta. unfold createProcess. rewrite H. apply Z.eqb_neq in Hn. rewrite Hn.
    exact (adds_try f pid false (wrote (LLine (T "Attach process " ++ str_int pid)) st)).
  Qed.
  Lemma create_program f st st1 pid : (forall n, s_pid o = Some n -> n = 0) -> createChild o child st = (st1, Ret pid) ->
    adds st1 (addProcess K p f pid true None false (t_dbg st1)) (createProcess p K o child f st).
  Proof.
    intros H Hc. pose proof (adds_try f pid true st1) as Ha. unfold createProcess. destruct (s_pid o) as [n|]; [rewrite (H n eq_refl)|]; cbn [Z.eqb];
    unfold tbind at 1 2; rewrite Hc; exact Ha.
  Qed.
  Lemma create_fails f st st1 x : (forall n, s_pid o = Some n -> n = 0) -> createChild o child st = (st1, Raise x) -> createProcess p K o child f st = (st1, Raise x).
  Proof.
    intros H Hc. unfold createProcess. destruct (s_pid o) as [n|]; [rewrite (H n eq_refl)|]; cbn [Z.eqb]; unfold tbind at 1 2; rewrite Hc; reflexivity.
  Qed.

End Create.
Section Start.
  Context (p : platform) (ns : namespace) (repr_fs : list byte -> text) (errorcode : list (Z * text)) (strerror : Z -> text)
          (K : dkernel) (stops : nat -> nat -> stop) (o : soptions) (only : list text) (child : res Z).
  Local Notation runDebugger := (runDebugger p ns repr_fs errorcode strerror K stops o only child).
  Local Notation strace_main := (strace_main p ns repr_fs errorcode strerror K stops o only child).

  Lemma fork_unsupported st rounds f : s_fork o = true -> has_ptrace_events p = false ->
    let st1 := wrote (LLine (T "--fork option is not supported by your OS, sorry!")) st in
    strace_main rounds f st = (st1, Raise (XErr (ESystemExit 1))) /\ exit_status (snd (strace_main rounds f st)) = 1.
  Proof.
    intros H Hp. cbv zeta. assert (strace_main rounds f st = (wrote (LLine (T "--fork option is not supported by your OS, sorry!")) st, Raise (XErr (ESystemExit 1)))) as E; [|split; [exact E|now rewrite E]].
    assert (runDebugger rounds f st = (wrote (LLine (T "--fork option is not supported by your OS, sorry!")) st, Raise (XErr (ESystemExit 1)))) as E1.
    { unfold StraceModel.runDebugger, setupDebugger. rewrite H. unfold tbind, ttry, tdbg, traceFork. rewrite Hp. cbn [negb]. destruct st; reflexivity. }
    unfold StraceModel.strace_main, main_of, tbind at 1, ttry at 1. rewrite E1. reflexivity.
  Qed.
  Lemma interrupted rounds f st st1 : runDebugger rounds f st = (st1, Raise (XErr EKeyboardInterrupt)) ->
    let st2 := wrote (LLine (T "Interrupted.")) st1 in
    forall d, quit K p f (t_dbg st2) = (d, Ret tt) -> strace_main rounds f st = (with_debugger st2 d, Ret (Some 1)).
  Proof. intros H. cbv zeta. intros d Hq. unfold StraceModel.strace_main, main_of, tbind at 1, ttry at 1. rewrite H. cbn -[quit]. unfold tbind, tlog, tret, tdbg. cbn [t_dbg wrote] in Hq |- *. rewrite Hq. reflexivity. Qed.

  Lemma setup_options st : has_ptrace_events p = true -> exists d, setupDebugger p o st = (with_debugger st d, Ret tt) /\
    d_options d = Z.lor (d_options (t_dbg st)) (asked_events o) /\ d_trace_fork d = (d_trace_fork (t_dbg st) || s_fork o) /\
    d_trace_exec d = (d_trace_exec (t_dbg st) || s_trace_exec o) /\ d_trace_clone d = (d_trace_clone (t_dbg st) || s_trace_clone o) /\
    d_sysgood d = d_sysgood (t_dbg st) /\ d_procs d = d_procs (t_dbg st) /\ d_dict d = d_dict (t_dbg st) /\ d_list d = d_list (t_dbg st) /\ d_calls d = d_calls (t_dbg st).
  Proof.
    intros Hp. unfold setupDebugger, asked_events. destruct st as [[pp dd ll oo tf te tc sg ca] sy re lo se].
    destruct (s_fork o), (s_trace_exec o), (s_trace_clone o); unfold tbind, ttry, tdbg, tret, traceFork, traceExec, traceClone; rewrite ?Hp; cbn [negb t_dbg];
      (eexists; split; [reflexivity|]; cbn [d_options d_trace_fork d_trace_exec d_trace_clone d_sysgood d_procs d_dict d_list d_calls t_dbg set_opts]; rewrite ?orb_true_r, ?orb_false_r, ?Z.lor_0_r, ?Z.lor_0_l, ?Z.lor_assoc; repeat split; reflexivity).
  Qed.

  (** ** Messages *)
  Lemma new_line id st st' r : handle_new p K id st = (st', r) -> t_log st' = LNewProcess id (T "*** New process " ++ str_int (pid_of st id) ++ T " ***") :: t_log st.
  Proof.
    unfold handle_new, prepareProcess, proc_syscall, set_ready. intros H.
    unfold tbind, tget, tlog, tdbg, tthrow in H. cbn [t_dbg] in H. destruct (syscall K p id 0 (t_dbg st)) as [d1 [[]|x1]]; [|injection H as <- _; reflexivity].
    cbn [t_dbg set_dbg] in H. destruct (get_proc id d1) as [d2 [q|x2]]; [|injection H as <- _; reflexivity]. destruct (pr_parent q) as [par|]; [|injection H as <- _; reflexivity].
    cbn [t_dbg set_dbg] in H. destruct (syscall K p par 0 d2) as [d3 r3]. injection H as <- _. reflexivity.
  Qed.
  Lemma execution_line id st st' r : handle_execution p K id st = (st', r) -> t_log st' = LLine (T "*** Process " ++ str_int (pid_of st id) ++ T " execution ***") :: t_log st.
  Proof.
    unfold handle_execution, proc_syscall. intros H. unfold tbind, tget, tlog, tdbg in H. cbn [t_dbg] in H. destruct (syscall K p id 0 (t_dbg st)) as [d1 r1]. injection H as <- _. reflexivity.
  Qed.
  Lemma line_shown_null pid c t : syscall_line p o pid c t =
    shown_line (if s_show_pid o || s_fork o then Some (str_int pid) else None)
               (if s_show_ip o then Some (match c_instr_pointer c with Some ip => formatAddress p ip | None => T "NULL" end) else None)
               t (match c_result c with Some _ => Some (get (c_result_text c)) | None => None end).
  Proof.
    unfold syscall_line, shown_line, show_pid, bracketed, in_columns, padr. cbv zeta.
    destruct (s_show_pid o || s_fork o), (s_show_ip o); destruct (c_result c); cbn [app]; rewrite <- ?app_assoc; reflexivity.
  Qed.
  Lemma status_byte r : exit_status r = match r with
    | Ret (Some code) | Raise (XErr (ESystemExit code)) => Z.land code 255
    | Ret None => 0
    | Raise _ => 1
    end.
  Proof. destruct r as [[c|]|[e|ev]]; try reflexivity; [cbn; symmetry; exact (Z.land_ones c 8 ltac:(lia))|]. destruct e; try reflexivity. cbn. symmetry. exact (Z.land_ones _ 8 ltac:(lia)). Qed.
End Start.

(** The report of unknown names *)
Lemma items_report valid : forall items only lines, only_items valid only items = inr lines ->
  exists unknown, unknown <> [] /\ (forall x, In x unknown -> ~ In x valid) /\
    lines = map (fun x => T "ERROR: unknown syscall " ++ repr_ascii x) unknown ++ [[]; T "Use --list-syscalls options to get system calls list"].
Proof.
  induction items as [|i items IH]; intros only lines H; [discriminate H|]. cbn [only_items] in H. destruct (only_item valid only i) as [l|l] eqn:E; [exact (IH _ _ H)|]. injection H as <-.
  unfold only_item in E. destruct (_ || _); [discriminate E|]. destruct (filter _ only) as [|u us] eqn:F; [discriminate E|]. injection E as <-. exists (u :: us). split; [discriminate|]. split; [|reflexivity].
  intros x Hx Hv. rewrite <- F in Hx. apply filter_In in Hx as [_ Hx]. assert (mem x valid = true) as Hm; [|rewrite Hm in Hx; discriminate Hx]. unfold mem. apply existsb_exists. exists x. split; [exact Hv|apply text_eqb_refl].
Qed.
Lemma filter_report names socket_names o lines : only_filter names socket_names o = inr lines ->
  exists unknown, unknown <> [] /\ (forall x, In x unknown -> ~ In x (map snd names)) /\
    lines = map (fun x => T "ERROR: unknown syscall " ++ repr_ascii x) unknown ++ [[]; T "Use --list-syscalls options to get system calls list"].
Proof.
  unfold only_filter. intros H. destruct (s_syscalls o) as [[|c t]|]; [discriminate H| |discriminate H].
  destruct (only_items (map snd names) [] (split_char "," (c :: t))) as [l|l] eqn:E; [discriminate H|]. injection H as <-. exact (items_report _ _ _ _ E).
Qed.
