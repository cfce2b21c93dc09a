(** * DbgProps: C23, C26-C33, C63, C64, the debugger and the life of its processes. *)
From Coq Require Import ZArith List Ascii String Bool Lia.
From Verif Require Import PyBase Platform DbgModel DbgSpec DbgProofs2 DbgProofs4 DbgProofs5 DbgFinal DbgFinal2 DbgLeft.
Import ListNotations.
Open Scope Z_scope.

(** ** C23 *)
Theorem c23_exited : forall K p f id status q st,
  running_linux p = true -> nth_error (d_procs st) id = Some q -> status mod 128 = 0 ->
  exists st', processStatus K p f id status st = (st', Ret (ProcessExit id None (Some ((status / 256) mod 256)))) /\ left_debugger st id st'.
Proof. exact status_exit. Qed.
Print Assumptions c23_exited.
(** BSD included (where the code first waits for the process once more) *)
Theorem c23_exited_any_platform : forall K p f id status st st' ev,
  status mod 128 = 0 -> processStatus K p f id status st = (st', Ret ev) ->
  ev = ProcessExit id None (Some ((status / 256) mod 256)) /\ ~ alive st' id.
Proof. exact status_exit_any. Qed.
Print Assumptions c23_exited_any_platform.
Theorem c23_killed : forall K p f id status q st,
  nth_error (d_procs st) id = Some q -> 1 <= status mod 128 <= 126 ->
  exists st', processStatus K p f id status st = (st', Ret (ProcessExit id (Some (status mod 128)) None)) /\ left_debugger st id st'.
Proof. exact status_killed. Qed.
Print Assumptions c23_killed.
Theorem c23_stopped : forall K p f id status st,
  status mod 256 = 127 -> (status / 65536 = 0 \/ running_linux p = false) ->
  processStatus K p f id status st = (with_stopped st id true, Ret (ProcessSignal ((status / 256) mod 256) id)).
Proof. exact status_stop. Qed.
Print Assumptions c23_stopped.
Theorem c23_exec : forall K p f id status st,
  running_linux p = true -> status mod 256 = 127 -> status / 65536 = 4 ->
  processStatus K p f id status st = (st, Ret (ProcessExecution id)).
Proof. exact status_exec. Qed.
Print Assumptions c23_exec.
Theorem c23_new_process : forall K p f id status q st,
  running_linux p = true -> nth_error (d_procs st) id = Some q -> status mod 256 = 127 -> 1 <= status / 65536 <= 3 ->
  processStatus K p f id status st =
    let st1 := add_call st (KEventMsg id (pr_pid q)) in
    match k_msg K (List.length (d_calls st)) (pr_pid q) with
    | Err e => (st1, Raise (XErr e))
    | Ok new_pid =>
        match addProcess K p f new_pid true (Some id) (status / 65536 =? 3) st1 with
        | (st2, Ret child) => (st2, Ret (NewProcessEvent child))
        | (st2, Raise x) => (st2, Raise x)
        end
    end.
Proof. exact status_new. Qed.
Print Assumptions c23_new_process.
Theorem c23_other_event : forall K p f id status st,
  running_linux p = true -> status mod 256 = 127 -> ~ 0 <= status / 65536 <= 4 ->
  processStatus K p f id status st = (st, Raise (XErr EProcessError)).
Proof. exact status_other. Qed.
Print Assumptions c23_other_event.
Theorem c23_meaningless : forall K p f id status st,
  meaningless status -> processStatus K p f id status st = (st, Raise (XErr EProcessError)).
Proof. exact status_meaningless. Qed.
Print Assumptions c23_meaningless.
(** what the kernel encodes falls into these classes *)
Theorem c23_encode : forall m, valid m ->
  match m with
  | Exited code => encode m mod 128 = 0 /\ (encode m / 256) mod 256 = code
  | Killed signum _ => encode m mod 128 = signum
  | Stopped signum => encode m mod 256 = 127 /\ encode m / 65536 = 0 /\ (encode m / 256) mod 256 = signum
  | TraceEvent ev => encode m mod 256 = 127 /\ encode m / 65536 = ev
  end.
Proof. exact encode_classes. Qed.
Print Assumptions c23_encode.
Example c23_ex :
  let K := scripted [stop_by 19] in let st := run K [OpAdd 5 100 true None false] in
  registered st 0 /\ alive st 0 /\ attached st 0 /\
  snd (processStatus K linux_x86_64 5 0 (encode (Exited 3)) st) = Ret (ProcessExit 0 None (Some 3)) /\
  d_list (fst (processStatus K linux_x86_64 5 0 (encode (Exited 3)) st)) = [] /\
  snd (processStatus K linux_x86_64 5 0 (encode (Killed 11 true)) st) = Ret (ProcessExit 0 (Some 11) None) /\
  snd (processStatus K linux_x86_64 5 0 (encode (Stopped 133)) st) = Ret (ProcessSignal 133 0) /\
  snd (processStatus K linux_x86_64 5 0 (encode (TraceEvent 6)) st) = Raise (XErr EProcessError) /\ meaningless 0xffff.
Proof.
  cbv zeta. split; [now left|]. split; [eexists; split; [vm_compute; reflexivity|reflexivity]|].
  split; [eexists; split; [vm_compute; reflexivity|reflexivity]|]. repeat split; try (vm_compute; reflexivity). vm_compute. discriminate.
Qed.

(** ** C26 *)
Theorem c26_registry : forall K p st, reachable_plain K p st -> registry_ok st.
Proof. exact reachable_ok. Qed.
Print Assumptions c26_registry.
Theorem c26_attached_registered : forall K p st id, reachable_plain K p st -> attached st id -> registered st id.
Proof. exact attached_registered. Qed.
Print Assumptions c26_attached_registered.
(** deleteProcess() called directly, a new process with the same pid, and detach() of the old object *)
Theorem c26_direct_delete_refuted : exists K st, reachable K linux_x86_64 st /\ d_dict st = [] /\ d_list st <> [].
Proof. exact delete_breaks_registry. Qed.
Print Assumptions c26_direct_delete_refuted.
Example c26_ex :
  let K := scripted [stop_by 19; 0; stop_by 5; 0; encode (TraceEvent 1); 0; stop_by 19; 0; encode (Exited 1)] in
  let st := run K [OpAdd 9 100 true None false; OpAdd 9 101 true None false; OpWait 9 (Some 100) true] in
  reachable_plain K linux_x86_64 st /\ d_dict st = [(100, 0%nat); (101, 1%nat); (200, 2%nat)] /\
  d_list (run_op K linux_x86_64 (OpWait 9 (Some 101) true) st) = [0; 2]%nat.
Proof. cbv zeta. split; [now apply run_plain|]. split; vm_compute; reflexivity. Qed.

(** ** C27 *)
Theorem c27_duplicate : forall K p f pid a par th st,
  dmem Z.eqb pid (d_dict st) = true -> addProcess K p f pid a par th st = (st, Raise (XErr EKeyError)).
Proof. exact add_duplicate. Qed.
Print Assumptions c27_duplicate.
Theorem c27_attach_fails : forall K p f pid par th st e,
  dmem Z.eqb pid (d_dict st) = false -> k_do K (List.length (d_calls st)) (KAttach pid) = Err e ->
  addProcess K p f pid false par th st = (add_call st (KAttach pid), Raise (XErr e)).
Proof. exact add_attach_fails. Qed.
Print Assumptions c27_attach_fails.
(** the process dies or vanishes during the handshake *)
Theorem c27_exit_partial : forall K p f pid (a : bool) par (th : bool) st,
  running_linux p = true -> reachable_plain K p st -> pid <> 0 -> dmem Z.eqb pid (d_dict st) = false ->
  (a = false -> exists u, k_do K (List.length (d_calls st)) (KAttach pid) = Ok u) ->
  let n := List.length (d_calls (if a then st else add_call st (KAttach pid))) in
  let flags := if th then thread_trace_flags p else 0 in
  (exists status, k_wait K n pid flags = Ok (pid, status) /\ status mod 128 <> 127) \/ k_wait K n pid flags = Err (EOSError 10) ->
  exists st' s c, addProcess K p (S f) pid a par th st = (st', Raise (XEvent (ProcessExit (List.length (d_procs st)) s c))) /\
    ~ registered st' (List.length (d_procs st)) /\ dget Z.eqb pid (d_dict st') = None.
Proof. exact add_exit. Qed.
Print Assumptions c27_exit_partial.
Theorem c27_success : forall K p f pid a par th st st' id,
  addProcess K p f pid a par th st = (st', Ret id) ->
  id = List.length (d_procs st) /\ exists q, nth_error (d_procs st') id = Some q /\ pr_pid q = pid /\ pr_was_attached q = a /\
    pr_is_thread q = th /\ pr_parent q = par.
Proof. exact add_returns. Qed.
Print Assumptions c27_success.
(** the error path sets is_attached before calling detach(), which then does nothing *)
Theorem c27_strange_status_refuted : exists K st',
  addProcess K linux_x86_64 5 100 true None false (new_debugger linux_x86_64) = (st', Raise (XErr EProcessError)) /\
  registered st' 0%nat /\ ~ attached st' 0%nat.
Proof. exact add_leaks_status. Qed.
Print Assumptions c27_strange_status_refuted.
Theorem c27_exec_event_refuted : exists K st',
  addProcess K linux_x86_64 5 100 true None false (new_debugger linux_x86_64) = (st', Raise (XEvent (ProcessExecution 0%nat))) /\
  registered st' 0%nat /\ ~ attached st' 0%nat.
Proof. exact add_leaks_exec. Qed.
Print Assumptions c27_exec_event_refuted.
Theorem c27_setoptions_refuted : exists K st' x,
  addProcess K linux_x86_64 5 100 true None false (new_debugger linux_x86_64) = (st', Raise x) /\ registered st' 0%nat.
Proof. exact add_leaks_options. Qed.
Print Assumptions c27_setoptions_refuted.
(** exactly when it leaves the process in the registry: whenever the error is not the end of that very process *)
Theorem c27_left_partial : forall K p, running_linux p = true -> (forall n q, k_msg K n q <> Ok 0) ->
  forall f pid (a : bool) par th st st' x, reachable_plain K p st -> pid <> 0 -> dmem Z.eqb pid (d_dict st) = false ->
  (a = false -> exists u, k_do K (List.length (d_calls st)) (KAttach pid) = Ok u) ->
  addProcess K p f pid a par th st = (st', Raise x) ->
  (registered st' (List.length (d_procs st)) <-> forall s c, x <> XEvent (ProcessExit (List.length (d_procs st)) s c)).
Proof. exact add_left_reachable. Qed.
Print Assumptions c27_left_partial.
Example c27_ex :
  snd (addProcess (scripted [0; stop_by 19]) linux_x86_64 5 100 false None false (new_debugger linux_x86_64)) = Ret 0%nat /\
  snd (addProcess (scripted [0; encode (Exited 1)]) linux_x86_64 5 100 false None false (new_debugger linux_x86_64)) =
    Raise (XEvent (ProcessExit 0 None (Some 1))).
Proof. split; vm_compute; reflexivity. Qed.
(** a forked process that is killed during the handshake of its parent, whose own addProcess then fails *)
Example c27_left_ex :
  let K := scripted [0; encode (TraceEvent 1); 0; 9] in
  let r := addProcess K linux_x86_64 5 100 false None false (new_debugger linux_x86_64) in
  (reachable_plain K linux_x86_64 (new_debugger linux_x86_64) /\ forall n q, k_msg K n q <> Ok 0) /\
  snd r = Raise (XEvent (ProcessExit 1 (Some 9) None)) /\ d_list (fst r) = [0%nat].
Proof. cbv zeta. split; [split; [now exists []|discriminate]|]. split; vm_compute; reflexivity. Qed.

(** ** C28 *)
Theorem c28_at_most_once : forall K p st id, reachable K p st -> (detaches id (d_calls st) <= 1)%nat.
Proof. exact detach_once. Qed.
Print Assumptions c28_at_most_once.
Theorem c28_detach : forall K p st id q,
  reachable_plain K p st -> nth_error (d_procs st) id = Some q -> pr_is_attached q = true ->
  (forall u, k_do K (List.length (d_calls st)) (KDetach id (pr_pid q)) = u -> u = Ok tt) ->
  exists st', detach K id st = (st', Ret tt) /\ ~ registered st' id /\ ~ attached st' id /\ dget Z.eqb (pr_pid q) (d_dict st') = None /\
    (forall i, i <> id -> registered st i -> registered st' i) /\
    made st st' (if pr_running q then [KDetach id (pr_pid q)] else []).
Proof. exact detach_spec. Qed.
Print Assumptions c28_detach.
Theorem c28_again : forall K id st, ~ attached st id -> nth_error (d_procs st) id <> None -> detach K id st = (st, Ret tt).
Proof. exact detach_unattached. Qed.
Print Assumptions c28_again.
(** when the kernel refuses the request the process stays registered and later calls do nothing *)
Theorem c28_failure_refuted : exists K st st' x, reachable_plain K linux_x86_64 st /\ attached st 0%nat /\
  detach K 0 st = (st', Raise x) /\ registered st' 0%nat /\ detach K 0 st' = (st', Ret tt).
Proof. exact detach_fails_leaks. Qed.
Print Assumptions c28_failure_refuted.
Example c28_ex :
  let K := scripted [0; stop_by 19] in let st := run K [OpAdd 5 100 false None false; OpDetach 0; OpDetach 0] in
  reachable K linux_x86_64 st /\ detaches 0 (d_calls st) = 1%nat /\ d_list st = [].
Proof. cbv zeta. split; [apply run_reachable|]. split; vm_compute; reflexivity. Qed.

(** ** C29 *)
Theorem c29_signals_only_started : forall K p f st,
  running_linux p = true -> registry_ok st ->
  exists new, made st (fst (quit K p f st)) new /\
    forall c i, In c new -> signals_to i c = true -> registered st i /\ started st i.
Proof. exact quit_calls. Qed.
Print Assumptions c29_signals_only_started.
Theorem c29_none_left_partial : forall K p f st st',
  reachable_plain K p st -> clean st -> quit K p f st = (st', Ret tt) -> forall id, registered st id -> ~ registered st' id.
Proof. exact quit_clears. Qed.
Print Assumptions c29_none_left_partial.
(** reverse registration order, exactly the necessary requests *)
Theorem c29_order : forall K p f st,
  running_linux p = true -> obliging K -> reachable_plain K p st -> clean st ->
  (forall id q, registered st id -> nth_error (d_procs st) id = Some q -> pr_pid q <> 0) ->
  exists st', quit K p (S (S f)) st = (st', Ret tt) /\
    made st st' (flat_map (fun id => match nth_error (d_procs st) id with Some q => farewell p q id | None => [] end) (rev (d_list st))) /\
    forall id, registered st id -> ~ registered st' id.
Proof. exact quit_obliged. Qed.
Print Assumptions c29_order.
(** a process whose addProcess() failed stays registered even after quit() *)
Theorem c29_left_over_refuted : exists K st st', reachable_plain K linux_x86_64 st /\ quit K linux_x86_64 5 st = (st', Ret tt) /\
  registered st 0%nat /\ registered st' 0%nat /\ d_dict st' = d_dict st /\ (forall i, registered st i -> has_pid st i 100).
Proof. exact quit_leaks. Qed.
Print Assumptions c29_left_over_refuted.
Example c29_ex :
  let K := scripted [stop_by 19; 0; 0; stop_by 19; 0; 0; 0; 9] in
  let st := run K [OpAdd 5 100 true None false; OpAdd 5 101 false None false] in
  reachable_plain K linux_x86_64 st /\ clean st /\ registry_ok st /\
  rev (firstn 3 (d_calls (fst (quit K linux_x86_64 5 st)))) = [KDetach 1 101; KCont 0 100 9; KWait 100 0] /\
  snd (quit K linux_x86_64 5 st) = Ret tt /\ d_list (fst (quit K linux_x86_64 5 st)) = [] /\
  obliging (DKernel (fun _ pid _ => Ok (pid, 9)) (fun _ _ => Ok 0) (fun _ _ => Ok tt)).
Proof.
  cbv zeta. match goal with |- ?A /\ _ => assert A as HA by now apply run_plain end. split; [exact HA|].
  split; [|split; [eapply reachable_ok; exact HA|repeat split; vm_compute; reflexivity]].
  intros id [<-|[<-|[]]]; (eexists; split; [vm_compute; reflexivity|reflexivity]).
Qed.

(** ** C30 *)
Theorem c30_equation : forall K p f pid b st id q,
  running_linux p = true -> pid <> 0 -> dget Z.eqb pid (d_dict st) = Some id -> nth_error (d_procs st) id = Some q ->
  let flags := (if b : bool then 0 else 1) in
  let flags := if pr_is_thread q then Z.lor flags 0x40000000 else flags in
  let st1 := add_call st (KWait pid flags) in
  match k_wait K (List.length (d_calls st)) pid flags with
  | Ok (pid', status) =>
      waitProcessEvent K p (S f) (Some pid) b st =
        if pid' =? pid then
          match processStatus K p f id status st1 with (st2, Ret ev) => (st2, Ret (Some ev)) | (st2, Raise x) => (st2, Raise x) end
        else if b || negb (pid' =? 0) then (st1, Raise (XErr EDebuggerError))
        else (st1, Ret None)
  | Err (EOSError 10) =>
      exists st2, waitProcessEvent K p (S f) (Some pid) b st = (st2, Ret (Some (ProcessExit id None None))) /\ left_debugger st1 id st2
  | Err e => waitProcessEvent K p (S f) (Some pid) b st = (st1, Raise (XErr e))
  end.
Proof. exact wait_equation. Qed.
Print Assumptions c30_equation.
Theorem c30_unknown_pid : forall K p f pid b st,
  pid <> 0 -> dget Z.eqb pid (d_dict st) = None ->
  waitProcessEvent K p (S f) (Some pid) b st = (st, Raise (XErr EDebuggerError)).
Proof. exact unknown_pid. Qed.
Print Assumptions c30_unknown_pid.
Theorem c30_own_event : forall K p f pid b st st' id ev,
  running_linux p = true -> reachable_plain K p st -> pid <> 0 -> dget Z.eqb pid (d_dict st) = Some id ->
  waitProcessEvent K p f (Some pid) b st = (st', Ret (Some ev)) -> event_about st' id ev.
Proof. exact own_event. Qed.
Print Assumptions c30_own_event.
Example c30_ex :
  let K := scripted [stop_by 19; 0; stop_by 11; 0] in let st := run K [OpAdd 5 100 true None false] in
  reachable_plain K linux_x86_64 st /\ dget Z.eqb 100 (d_dict st) = Some 0%nat /\
  snd (waitProcessEvent K linux_x86_64 5 (Some 100) true st) = Ret (Some (ProcessSignal 11 0)) /\
  let st2 := run K [OpAdd 5 100 true None false; OpWait 5 (Some 100) true] in
  snd (waitProcessEvent K linux_x86_64 5 (Some 100) false st2) = Ret None.
Proof. cbv zeta. split; [now apply run_plain|]. repeat split; vm_compute; reflexivity. Qed.

(** ** C31 *)
Theorem c31_first_ready : forall K p f pause b st pids pid rest st1,
  running_linux p = true -> map fst (d_dict st) = pids ++ pid :: rest -> (1 < List.length (d_dict st))%nat -> ~ In 0 pids ->
  quiet K p st pids st1 -> (forall st2, waitProcessEvent K p (S f) (Some pid) false st1 <> (st2, Ret None)) ->
  wait K p (S (S f)) (QAny pause b) st = waitProcessEvent K p (S f) (Some pid) false st1.
Proof. exact any_first. Qed.
Print Assumptions c31_first_ready.
Theorem c31_none_ready : forall K p f pause (b : bool) st st1,
  running_linux p = true -> (1 < List.length (d_dict st))%nat -> ~ In 0 (map fst (d_dict st)) ->
  quiet K p st (map fst (d_dict st)) st1 ->
  wait K p (S (S f)) (QAny pause b) st =
    if b then
      let st2 := add_call st1 (KSleep (Z.min (pause * 2) 500)) in
      match k_do K (List.length (d_calls st1)) (KSleep (Z.min (pause * 2) 500)) with
      | Ok _ => wait K p (S f) (QAny (Z.min (pause * 2) 500) b) st2
      | Err e => (st2, Raise (XErr e))
      end
    else (st1, Ret None).
Proof. exact any_none. Qed.
Print Assumptions c31_none_ready.
Theorem c31_single : forall K p f pause b st pid id,
  d_dict st = [(pid, id)] -> wait K p (S f) (QAny pause b) st = waitProcessEvent K p f (Some pid) b st.
Proof. exact any_one. Qed.
Print Assumptions c31_single.
(** without any process the loop variable is looked up in an empty list *)
Theorem c31_no_process : forall K p f pause b st,
  d_dict st = [] -> wait K p (S f) (QAny pause b) st = (st, Raise (XErr EIndexError)).
Proof. exact any_empty. Qed.
Print Assumptions c31_no_process.
Theorem c31_known_pids : forall K p f q st, reachable_plain K p st ->
  exists new, made st (fst (wait K p f q st)) new /\
  forall pid flags, In (KWait pid flags) new -> pid = -1 \/ exists id, has_pid (fst (wait K p f q st)) id pid.
Proof. exact wait_registered. Qed.
Print Assumptions c31_known_pids.
Example c31_ex :
  let K := scripted [stop_by 19; 0; stop_by 19; 0; 0; stop_by 11] in
  let st := run K [OpAdd 5 100 true None false; OpAdd 5 101 true None false] in
  map fst (d_dict st) = [100; 101] /\ quiet K linux_x86_64 st [100] (add_call st (KWait 100 1)) /\
  snd (waitProcessEvent K linux_x86_64 5 None true st) = Ret (Some (ProcessSignal 11 1)).
Proof.
  cbv zeta. split; [vm_compute; reflexivity|]. split; [|vm_compute; reflexivity].
  eapply (quiet_cons _ _ _ 100 0%nat); [vm_compute; reflexivity|vm_compute; reflexivity|vm_compute; reflexivity|].
  apply quiet_nil.
Qed.

(** ** C32 *)
Theorem c32_returns : forall K p f signals pid st st' ev,
  waitSignals K p f signals pid st = (st', Ret ev) <->
  waitProcessEvent K p f pid true st = (st', Ret (Some ev)) /\
  exists s id, ev = ProcessSignal s id /\ (signals = [] \/ In s signals).
Proof. exact signals_returns. Qed.
Print Assumptions c32_returns.
Theorem c32_raises : forall K p f signals pid st st' ev,
  waitProcessEvent K p f pid true st = (st', Ret (Some ev)) ->
  (forall s id, ev = ProcessSignal s id -> signals <> [] /\ ~ In s signals) ->
  waitSignals K p f signals pid st = (st', Raise (XEvent ev)).
Proof. exact signals_raises. Qed.
Print Assumptions c32_raises.
Theorem c32_blocking_has_event : forall K p f pid st st', waitProcessEvent K p f pid true st <> (st', Ret None).
Proof. exact signals_no_none. Qed.
Print Assumptions c32_blocking_has_event.
Theorem c32_syscall : forall K p f process st,
  (forall id, process = Some id -> nth_error (d_procs st) id <> None) ->
  waitSyscall K p f process st =
    waitSignals K p f [if d_sysgood st then 133 else 5]
      (match process with Some id => option_map pr_pid (nth_error (d_procs st) id) | None => None end) st.
Proof. exact syscall_signal. Qed.
Print Assumptions c32_syscall.
Example c32_ex :
  let K := scripted [stop_by 19; 0; stop_by 133; stop_by 11] in let st := run K [OpAdd 5 100 true None false] in
  d_sysgood st = true /\ snd (waitSyscall K linux_x86_64 5 (Some 0%nat) st) = Ret (ProcessSignal 133 0) /\
  snd (waitSignals K linux_x86_64 5 [5; 19] (Some 100) st) = Raise (XEvent (ProcessSignal 133 0)).
Proof. cbv zeta. repeat split; vm_compute; reflexivity. Qed.

(** ** C33 *)
Theorem c33_cont : forall K id s st q, nth_error (d_procs st) id = Some q ->
  let s' := if s =? 5 then 0 else s in
  cont K id s st =
    let st1 := add_call st (KCont id (pr_pid q) s') in
    match k_do K (List.length (d_calls st)) (KCont id (pr_pid q) s') with
    | Ok _ => (with_stopped st1 id false, Ret tt)
    | Err e => (st1, Raise (XErr e))
    end.
Proof. exact cont_spec. Qed.
Print Assumptions c33_cont.
Theorem c33_syscall : forall K p id s st q, running_openbsd p = false -> nth_error (d_procs st) id = Some q ->
  let s' := if s =? 5 then 0 else s in
  syscall K p id s st =
    let st1 := add_call st (KSyscall id (pr_pid q) s') in
    match k_do K (List.length (d_calls st)) (KSyscall id (pr_pid q) s') with
    | Ok _ => (with_stopped st1 id false, Ret tt)
    | Err e => (st1, Raise (XErr e))
    end.
Proof. exact syscall_spec. Qed.
Print Assumptions c33_syscall.
Theorem c33_never_sigtrap : forall K p st c, reachable K p st -> In c (d_calls st) ->
  match c with KCont _ _ s | KSyscall _ _ s => s <> 5 | _ => True end.
Proof. exact never_sigtrap. Qed.
Print Assumptions c33_never_sigtrap.
Example c33_ex :
  let K := scripted [stop_by 19] in
  let st := run K [OpAdd 5 100 true None false; OpCont 0 5; OpSyscall 0 11] in
  reachable K linux_x86_64 st /\ firstn 2 (d_calls st) = [KSyscall 0 100 11; KCont 0 100 0].
Proof. cbv zeta. split; [apply run_reachable|]. vm_compute. reflexivity. Qed.

(** ** C63 *)
Theorem c63_skips : forall K p f id w st q, nth_error (d_procs st) id = Some q ->
  pr_running q = false \/ pr_was_attached q = false -> terminate K p f id w st = (st, Ret true).
Proof. exact terminate_skips. Qed.
Print Assumptions c63_skips.
Theorem c63_one_sigkill : forall K p f id w st q,
  nth_error (d_procs st) id = Some q -> pr_running q = true -> pr_was_attached q = true ->
  exists rest, made st (fst (terminate K p f id w st))
    ((if pr_is_stopped q then KCont id (pr_pid q) 9 else KKill id (pr_pid q) 9) :: rest) /\ forall c, In c rest -> is_kill c = false.
Proof. exact terminate_first. Qed.
Print Assumptions c63_one_sigkill.
Theorem c63_true_means_dead_partial : forall K p f id w st st',
  started st id -> terminate K p f id w st = (st', Ret true) -> ~ alive st' id.
Proof. exact terminate_dead. Qed.
Print Assumptions c63_true_means_dead_partial.
(** for a process the debugger attached to it returns True although the process is alive *)
Theorem c63_attached_refuted : exists K st,
  reachable_plain K linux_x86_64 st /\ terminate K linux_x86_64 5 0 true st = (st, Ret true) /\ alive st 0%nat.
Proof. exact terminate_lies. Qed.
Print Assumptions c63_attached_refuted.
Example c63_ex :
  let K := scripted [stop_by 19; 0; 0; 9] in let st := run K [OpAdd 5 100 true None false] in
  started st 0 /\ alive st 0 /\ snd (terminate K linux_x86_64 5 0 true st) = Ret true /\
  firstn 2 (d_calls (fst (terminate K linux_x86_64 5 0 true st))) = [KWait 100 0; KCont 0 100 9].
Proof.
  cbv zeta. do 2 (split; [eexists; split; [vm_compute; reflexivity|reflexivity]|]). split; vm_compute; reflexivity.
Qed.

(** ** C64 *)
Theorem c64_until_exit : forall K p f id st st', waitExit K p f id st = (st', Ret tt) ->
  exists q, nth_error (d_procs st) id = Some q /\ waits_exit K p id (pr_pid q) st st'.
Proof. exact waitExit_rel. Qed.
Print Assumptions c64_until_exit.
Theorem c64_resumes : forall K p f id st, running_linux p = true ->
  exists new, made st (fst (wait K p f (QExit id) st)) new /\
  forall c, In c new ->
    match c with KCont i _ s => i = id /\ s <> 5 /\ s <> 19 | KSyscall _ _ _ | KStep _ _ | KKill _ _ _ => False | _ => True end.
Proof. exact exit_resumes. Qed.
Print Assumptions c64_resumes.
Example c64_ex :
  let K := scripted [stop_by 19; 0; stop_by 5; 0; stop_by 15; 0; encode (Exited 1)] in
  let st := run K [OpAdd 5 100 true None false] in
  snd (waitExit K linux_x86_64 9 0 st) = Ret tt /\
  rev (firstn 5 (d_calls (fst (waitExit K linux_x86_64 9 0 st)))) =
    [KWait 100 0; KCont 0 100 0; KWait 100 0; KCont 0 100 15; KWait 100 0].
Proof. cbv zeta. split; vm_compute; reflexivity. Qed.
(** ** C100: the options of the debugger *)
Theorem c100_new : forall p, new_debugger p = DState [] [] [] (if running_linux p then 1 else 0) false false false (running_linux p) [].
Proof. exact fresh_debugger. Qed.
Print Assumptions c100_new.
Theorem c100_fork : forall p st, running_linux p = true -> exists st', traceFork p st = (st', Ret tt) /\ same_but_options st st' /\ adds_bits [1; 2] st st' /\
  d_trace_fork st' = true /\ d_trace_exec st' = d_trace_exec st /\ d_trace_clone st' = d_trace_clone st /\ d_sysgood st' = d_sysgood st.
Proof. exact trace_fork. Qed.
Print Assumptions c100_fork.
Theorem c100_exec : forall p st, running_linux p = true -> exists st', traceExec p st = (st', Ret tt) /\ same_but_options st st' /\ adds_bits [4] st st' /\
  d_trace_fork st' = d_trace_fork st /\ d_trace_exec st' = true /\ d_trace_clone st' = d_trace_clone st /\ d_sysgood st' = d_sysgood st.
Proof. exact trace_exec. Qed.
Print Assumptions c100_exec.
Theorem c100_clone : forall p st, running_linux p = true -> exists st', traceClone p st = (st', Ret tt) /\ same_but_options st st' /\ adds_bits [3] st st' /\
  d_trace_fork st' = d_trace_fork st /\ d_trace_exec st' = d_trace_exec st /\ d_trace_clone st' = true /\ d_sysgood st' = d_sysgood st.
Proof. exact trace_clone. Qed.
Print Assumptions c100_clone.
Theorem c100_sysgood : forall p st, running_linux p = true -> exists st', enableSysgood p st = (st', Ret tt) /\ same_but_options st st' /\ adds_bits [0] st st' /\
  d_trace_fork st' = d_trace_fork st /\ d_trace_exec st' = d_trace_exec st /\ d_trace_clone st' = d_trace_clone st /\ d_sysgood st' = true.
Proof. exact sysgood_on. Qed.
Print Assumptions c100_sysgood.
(** Without events only traceFork fails; the others do nothing. *)
Theorem c100_not_linux : forall p st, running_linux p = false ->
  traceFork p st = (st, Raise (XErr EDebuggerError)) /\ traceExec p st = (st, Ret tt) /\ traceClone p st = (st, Ret tt) /\ enableSysgood p st = (st, Ret tt).
Proof. exact options_bsd. Qed.
Print Assumptions c100_not_linux.
Example c100_ex : let st := fst (traceExec linux_x86_64 (fst (traceFork linux_x86_64 (new_debugger linux_x86_64)))) in
  d_options st = 23 /\ d_trace_fork st = true /\ d_trace_clone st = false /\ d_options (new_debugger freebsd_x86_64) = 0.
Proof. vm_compute. repeat split. Qed.
(** PTRACE_SYSCALL does not exist on OpenBSD: NameError (C33).  Threads cannot be waited for without events (C30). *)
Theorem c33_openbsd : forall K p id s st q, running_openbsd p = true -> nth_error (d_procs st) id = Some q -> syscall K p id s st = (st, Raise (XErr ENameError)).
Proof. exact syscall_openbsd. Qed.
Print Assumptions c33_openbsd.
Theorem c30_thread_not_linux : forall K p pid b st id q, running_linux p = false -> pid <> 0 -> dget Z.eqb pid (d_dict st) = Some id -> nth_error (d_procs st) id = Some q -> pr_is_thread q = true ->
  waitpid_ K p pid b st = (st, Raise (XErr ENameError)).
Proof. exact wait_thread_bsd. Qed.
Print Assumptions c30_thread_not_linux.
