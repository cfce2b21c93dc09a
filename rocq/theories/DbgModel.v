(** * DbgModel: the debugger object and the life of traced processes
    (ptrace/debugger/debugger.py, ptrace/debugger/process_event.py and the state methods of
    ptrace/debugger/process.py). *)
From Coq Require Import ZArith List Ascii String Bool.
From Verif Require Import PyBase Platform.
Import ListNotations.
Open Scope Z_scope.

(** ** Constants (Linux numbering) *)
Definition SIGKILL : Z := 9.
Definition SIGTRAP : Z := 5.
Definition SIGSTOP : Z := 19.
Definition ECHILD : Z := 10.
Definition ESRCH : Z := 3.
Definition WNOHANG : Z := 1.
(** ptrace/binding/func.py 117-131 *)
Definition PTRACE_O_TRACESYSGOOD : Z := 1.
Definition PTRACE_O_TRACEFORK : Z := 2.
Definition PTRACE_O_TRACEVFORK : Z := 4.
Definition PTRACE_O_TRACECLONE : Z := 8.
Definition PTRACE_O_TRACEEXEC : Z := 16.
Definition PTRACE_EVENT_FORK : Z := 1.
Definition PTRACE_EVENT_VFORK : Z := 2.
Definition PTRACE_EVENT_CLONE : Z := 3.
Definition PTRACE_EVENT_EXEC : Z := 4.

(** ** Wait statuses: the macros of os (glibc's bits/waitstatus.h; the BSD macros agree on statuses below 2^16) *)
Definition WTERMSIG (status : Z) : Z := Z.land status 0x7f.
Definition WIFEXITED (status : Z) : bool := WTERMSIG status =? 0.
Definition WEXITSTATUS (status : Z) : Z := Z.shiftr (Z.land status 0xff00) 8.
(** [((signed char) ((status & 0x7f) + 1) >> 1) > 0] *)
Definition WIFSIGNALED (status : Z) : bool := (1 <=? WTERMSIG status) && (WTERMSIG status <=? 0x7e).
Definition WIFSTOPPED (status : Z) : bool := Z.land status 0xff =? 0x7f.
Definition WSTOPSIG (status : Z) : Z := WEXITSTATUS status.
Definition WCOREDUMP (status : Z) : bool := negb (Z.land status 0x80 =? 0).
(** ptrace/binding/func.py 229-230 *)
Definition WPTRACEEVENT (status : Z) : Z := Z.shiftr status 16.

(** ** Objects *)

(** A PtraceProcess object: the attributes of process.py 160-177 that describe its state.  Objects are referred to by
    their index in the list of all objects registered so far.  Not represented: read_mem_file (see MemModel),
    breakpoints (BreakModel), syscall_state (SysModel). *)
Record proc : Type := Proc {
  pr_pid : Z;
  pr_running : bool;
  pr_exited : bool;
  pr_was_attached : bool;
  pr_is_attached : bool;
  pr_is_stopped : bool;
  pr_is_thread : bool;
  pr_parent : option nat
}.

(** ptrace/debugger/process_event.py 4-61 and ptrace_signal.py:ProcessSignal *)
Inductive event : Type :=
| ProcessExit (process : nat) (signum exitcode : option Z)
| ProcessExecution (process : nat)
| NewProcessEvent (process : nat)
| ProcessSignal (signum : Z) (process : nat).

(** Events are exceptions, too. *)
Inductive dexn : Type := XErr (e : exn) | XEvent (ev : event).
Inductive out (A : Type) : Type := Ret (a : A) | Raise (x : dexn).
Arguments Ret {A} a.
Arguments Raise {A} x.

(** Requests to the kernel.  Process identifiers are accompanied by the object on whose behalf the request is made.
    [KDisplay] stands for ProcessSignal.display(), which examines the process and logs. *)
Inductive kcall : Type :=
| KWait (pid flags : Z)
| KAttach (pid : Z)
| KDetach (id : nat) (pid : Z)
| KCont (id : nat) (pid signum : Z)
| KSyscall (id : nat) (pid signum : Z)
| KStep (id : nat) (pid : Z)
| KKill (id : nat) (pid signum : Z)
| KSetOptions (id : nat) (pid options : Z)
| KEventMsg (id : nat) (pid : Z)
| KDisplay (id : nat) (signum : Z)
| KSleep (ms : Z).

Record dstate : Type := DState {
  d_procs : list proc;             (* every object registered so far *)
  d_dict : list (Z * nat);         (* PtraceDebugger.dict *)
  d_list : list nat;               (* PtraceDebugger.list *)
  d_options : Z;
  d_trace_fork : bool;
  d_trace_exec : bool;
  d_trace_clone : bool;
  d_sysgood : bool;
  d_calls : list kcall             (* requests made so far, latest first *)
}.
Definition set_procs (st : dstate) (l : list proc) : dstate :=
  DState l (d_dict st) (d_list st) (d_options st) (d_trace_fork st) (d_trace_exec st) (d_trace_clone st) (d_sysgood st) (d_calls st).
Definition set_reg (st : dstate) (d : list (Z * nat)) (l : list nat) : dstate :=
  DState (d_procs st) d l (d_options st) (d_trace_fork st) (d_trace_exec st) (d_trace_clone st) (d_sysgood st) (d_calls st).
Definition add_call (st : dstate) (c : kcall) : dstate :=
  DState (d_procs st) (d_dict st) (d_list st) (d_options st) (d_trace_fork st) (d_trace_exec st) (d_trace_clone st)
         (d_sysgood st) (c :: d_calls st).

(** The kernel: the answer to a request may depend on everything asked before (the number of requests made so far
    identifies the history).  waitpid() returns (pid, status). *)
Record dkernel : Type := DKernel {
  k_wait : nat -> Z -> Z -> res (Z * Z);
  k_msg : nat -> Z -> res Z;
  k_do : nat -> kcall -> res unit
}.

(** ** The monad *)
Definition D (A : Type) : Type := dstate -> dstate * out A.
Definition dret {A} (a : A) : D A := fun st => (st, Ret a).
Definition draise {A} (e : exn) : D A := fun st => (st, Raise (XErr e)).
Definition dthrow {A} (ev : event) : D A := fun st => (st, Raise (XEvent ev)).
Definition dbind {A B} (m : D A) (f : A -> D B) : D B :=
  fun st => match m st with
            | (st, Ret a) => f a st
            | (st, Raise x) => (st, Raise x)
            end.
Notation "x <== m ; f" := (dbind m (fun x => f))
  (at level 100, m at level 100, f at level 200, right associativity).
Definition dlift {A} (r : res A) : D A :=
  fun st => (st, match r with Ok a => Ret a | Err e => Raise (XErr e) end).
Definition dget_state : D dstate := fun st => (st, Ret st).

Fixpoint upd_nth {A} (n : nat) (f : A -> A) (l : list A) : list A :=
  match l, n with
  | [], _ => []
  | x :: l, O => f x :: l
  | x :: l, S n => x :: upd_nth n f l
  end.
Definition upd_proc (id : nat) (f : proc -> proc) : D unit :=
  fun st => (set_procs st (upd_nth id f (d_procs st)), Ret tt).
Definition set_running (b : bool) (q : proc) : proc :=
  Proc (pr_pid q) b (pr_exited q) (pr_was_attached q) (pr_is_attached q) (pr_is_stopped q) (pr_is_thread q) (pr_parent q).
Definition set_exited (b : bool) (q : proc) : proc :=
  Proc (pr_pid q) (pr_running q) b (pr_was_attached q) (pr_is_attached q) (pr_is_stopped q) (pr_is_thread q) (pr_parent q).
Definition set_attached (b : bool) (q : proc) : proc :=
  Proc (pr_pid q) (pr_running q) (pr_exited q) (pr_was_attached q) b (pr_is_stopped q) (pr_is_thread q) (pr_parent q).
Definition set_stopped (b : bool) (q : proc) : proc :=
  Proc (pr_pid q) (pr_running q) (pr_exited q) (pr_was_attached q) (pr_is_attached q) b (pr_is_thread q) (pr_parent q).
(** The object with a given index (always present). *)
Definition get_proc (id : nat) : D proc :=
  fun st => match nth_error (d_procs st) id with
            | Some q => (st, Ret q)
            | None => (st, Raise (XErr EUndefined))
            end.

Section Debugger.
  Context (K : dkernel) (p : platform).

  Definition request (c : kcall) : D unit :=
    fun st => (add_call st c,
               match k_do K (List.length (d_calls st)) c with Ok _ => Ret tt | Err e => Raise (XErr e) end).
  (** os.waitpid *)
  Definition os_waitpid (pid flags : Z) : D (Z * Z) :=
    fun st => (add_call st (KWait pid flags),
               match k_wait K (List.length (d_calls st)) pid flags with Ok a => Ret a | Err e => Raise (XErr e) end).
  (** ptrace/binding/func.py 235-238 (see CallModel for the representation of the message) *)
  Definition ptrace_geteventmsg (id : nat) (pid : Z) : D Z :=
    fun st => (add_call st (KEventMsg id pid),
               match k_msg K (List.length (d_calls st)) pid with Ok a => Ret a | Err e => Raise (XErr e) end).

  (** ptrace/debugger/debugger.py 225-241: deleteProcess(process=...); [list.remove] removes the first occurrence *)
  Fixpoint remove_first (id : nat) (l : list nat) : list nat :=
    match l with
    | [] => []
    | x :: l => if Nat.eqb x id then l else x :: remove_first id l
    end.
  Definition deleteProcess (id : nat) : D unit :=
    q <== get_proc id;
    fun st => (set_reg st (ddel Z.eqb (pr_pid q) (d_dict st)) (remove_first id (d_list st)), Ret tt).
  (** deleteProcess(pid=...) *)
  Definition deleteProcess_pid (pid : Z) : D unit :=
    fun st => match dget Z.eqb pid (d_dict st) with
              | None => (st, Ret tt)
              | Some id => deleteProcess id st
              end.

  (** ptrace/debugger/process.py 291-298 *)
  Definition detach (id : nat) : D unit :=
    q <== get_proc id;
    if negb (pr_is_attached q) then dret tt
    else
      _ <== upd_proc id (set_attached false);
      _ <== (if pr_running q then request (KDetach id (pr_pid q)) else dret tt);
      deleteProcess id.

  (** ptrace/debugger/process.py 300-307 (closing read_mem_file is not represented) *)
  Definition notRunning (id : nat) : D unit :=
    _ <== upd_proc id (set_running false);
    detach id.

  (** ptrace/debugger/process.py 466-471 *)
  Definition filterSignal (signum : Z) : Z := if signum =? SIGTRAP then 0 else signum.
  (** ptrace/debugger/process.py 721-724 *)
  Definition cont (id : nat) (signum : Z) : D unit :=
    q <== get_proc id;
    _ <== request (KCont id (pr_pid q) (filterSignal signum));
    upd_proc id (set_stopped false).
  (** ptrace/debugger/process.py 473-476; PTRACE_SYSCALL is not defined on OpenBSD (func.py 56-72) *)
  Definition syscall (id : nat) (signum : Z) : D unit :=
    q <== get_proc id;
    if running_openbsd p then draise ENameError
    else
      _ <== request (KSyscall id (pr_pid q) (filterSignal signum));
      upd_proc id (set_stopped false).
  (** ptrace/debugger/process.py 461-464 (HAS_PTRACE_SINGLESTEP is always true) *)
  Definition singleStep (id : nat) : D unit :=
    q <== get_proc id;
    request (KStep id (pr_pid q)).
  (** ptrace/debugger/process.py 309-310 *)
  Definition kill (id : nat) (signum : Z) : D unit :=
    q <== get_proc id;
    request (KKill id (pr_pid q) signum).
  (** ptrace/debugger/process.py 726-730 *)
  Definition setoptions (id : nat) (options : Z) : D unit :=
    q <== get_proc id;
    if negb (has_ptrace_events p) then draise ENotImplementedError
    else request (KSetOptions id (pr_pid q) options).

  (** ptrace/debugger/debugger.py 116-142: wanted_pid = 0 or None waits for any process *)
  Definition waitpid_ (wanted_pid : Z) (blocking : bool) : D (Z * Z) :=
    let flags := if blocking then 0 else WNOHANG in
    r <== (if negb (wanted_pid =? 0) then
             st <== dget_state;
             match dget Z.eqb wanted_pid (d_dict st) with
             | None => draise EDebuggerError
             | Some id =>
                 q <== get_proc id;
                 if pr_is_thread q && negb (has_ptrace_events p) then draise ENameError
                 else
                   let flags := if pr_is_thread q then Z.lor flags (thread_trace_flags p) else flags in
                   os_waitpid wanted_pid flags
             end
           else os_waitpid (-1) flags);
    let '(pid, status) := r in
    if (blocking || negb (pid =? 0)) && negb (wanted_pid =? 0) && negb (pid =? wanted_pid)
    then draise EDebuggerError
    else dret (pid, status).

  (** What the mutually recursive waiting functions are asked for. *)
  Inductive wquery : Type :=
  | QPid (wanted_pid : Z) (blocking : bool)   (* _wait_event_pid *)
  | QAny (pause : Z) (blocking : bool)        (* the loop of _wait_event without pid, pause in ms *)
  | QExit (id : nat).                         (* process.waitExit() *)

  Section Rec.
    (** The recursive calls; they return [None] for "no event" and for waitExit. *)
    Context (rec : wquery -> D (option event)).

    (** ptrace/debugger/debugger.py 168-170 *)
    Definition wait_event_query (wanted_pid : option Z) (blocking : bool) : wquery :=
      match wanted_pid with Some pid => QPid pid blocking | None => QAny 1 blocking end.

    (** ptrace/debugger/debugger.py 195-209; an event is always there as the wait is blocking *)
    Definition waitSignals_ (signals : list Z) (pid : option Z) : D event :=
      e <== rec (wait_event_query pid true);
      match e with
      | Some (ProcessSignal signum id) =>
          if existsb (Z.eqb signum) signals || (match signals with [] => true | _ => false end)
          then dret (ProcessSignal signum id)
          else dthrow (ProcessSignal signum id)
      | Some ev => dthrow ev
      | None => draise ETypeError   (* raise None *)
      end.

    (** ptrace/debugger/debugger.py 74-102 with process.py 160-177 and 185-190 *)
    Definition addProcess_ (pid : Z) (is_attached : bool) (parent : option nat) (is_thread : bool) : D nat :=
      st <== dget_state;
      if dmem Z.eqb pid (d_dict st) then draise EKeyError
      else
        _ <== (if is_attached then dret tt else request (KAttach pid));
        let id := List.length (d_procs st) in
        _ <== (fun st =>
                 (set_reg (set_procs st (d_procs st ++ [Proc pid true false is_attached true true is_thread parent]))
                          (dset Z.eqb pid id (d_dict st)) (d_list st ++ [id]), Ret tt));
        _ <== (fun st =>
                 match waitSignals_ [SIGTRAP; SIGSTOP] (Some pid) st with
                 | (st, Ret _) => (st, Ret tt)
                 | (st, Raise (XErr EKeyboardInterrupt)) => (st, Ret tt)
                 | (st, Raise (XEvent (ProcessSignal signum who))) => request (KDisplay who signum) st
                 | (st, Raise x) =>
                     match upd_proc id (set_attached false) st with
                     | (st, _) =>
                         match detach id st with
                         | (st, Ret _) => (st, Raise x)
                         | (st, Raise x') => (st, Raise x')
                         end
                     end
                 end);
        _ <== (fun st =>
                 if has_ptrace_events p && negb (d_options st =? 0) then setoptions id (d_options st) st
                 else (st, Ret tt));
        dret id.

    (** ptrace/debugger/process.py 401-413 *)
    Definition ptraceEvent_ (id : nat) (ev : Z) : D event :=
      if negb (has_ptrace_events p) then draise ENotImplementedError
      else if (ev =? PTRACE_EVENT_FORK) || (ev =? PTRACE_EVENT_VFORK) || (ev =? PTRACE_EVENT_CLONE) then
        q <== get_proc id;
        new_pid <== ptrace_geteventmsg id (pr_pid q);
        new_process <== addProcess_ new_pid true (Some id) (ev =? PTRACE_EVENT_CLONE);
        dret (NewProcessEvent new_process)
      else if ev =? PTRACE_EVENT_EXEC then dret (ProcessExecution id)
      else draise EProcessError.

    (** ptrace/debugger/process.py 380-382 *)
    Definition processTerminated (id : nat) : D event :=
      _ <== notRunning id;
      dret (ProcessExit id None None).
    (** ptrace/debugger/process.py 384-391 *)
    Definition processExited_ (id : nat) (code : Z) : D event :=
      q <== get_proc id;
      _ <== (if running_bsd p && negb (pr_exited q)
             then _ <== upd_proc id (set_exited true); _ <== rec (QExit id); dret tt
             else dret tt);
      _ <== notRunning id;
      dret (ProcessExit id None (Some code)).
    (** ptrace/debugger/process.py 393-395 *)
    Definition processKilled (id : nat) (signum : Z) : D event :=
      _ <== notRunning id;
      dret (ProcessExit id (Some signum) None).
    (** ptrace/debugger/process.py 397-399 *)
    Definition processSignal (id : nat) (signum : Z) : D event :=
      _ <== upd_proc id (set_stopped true);
      dret (ProcessSignal signum id).

    (** ptrace/debugger/process.py 355-378 *)
    Definition processStatus_ (id : nat) (status : Z) : D event :=
      if WIFEXITED status then processExited_ id (WEXITSTATUS status)
      else if WIFSIGNALED status then processKilled id (WTERMSIG status)
      else if negb (WIFSTOPPED status) then draise EProcessError
      else if has_ptrace_events p && negb (WPTRACEEVENT status =? 0)
      then ptraceEvent_ id (WPTRACEEVENT status)
      else processSignal id (WSTOPSIG status).

    (** ptrace/debugger/debugger.py 144-166: one round of the loop *)
    Definition wait_event_pid_ (wanted_pid : Z) (blocking : bool) : D (option event) :=
      fun st =>
        match waitpid_ wanted_pid blocking st with
        | (st, Raise (XErr (EOSError e))) =>
            if e =? ECHILD then
              match dget Z.eqb wanted_pid (d_dict st) with
              | None => (st, Raise (XErr EKeyError))
              | Some id => (ev <== processTerminated id; dret (Some ev)) st
              end
            else (st, Raise (XErr (EOSError e)))
        | (st, Raise x) => (st, Raise x)
        | (st, Ret (pid, status)) =>
            if negb blocking && (pid =? 0) then (st, Ret None)
            else
              match dget Z.eqb pid (d_dict st) with
              | None => rec (QPid wanted_pid blocking) st
              | Some id => (ev <== processStatus_ id status; dret (Some ev)) st
              end
        end.

    (** ptrace/debugger/debugger.py 176-179 *)
    Fixpoint poll (pids : list Z) : D (option event) :=
      match pids with
      | [] => dret None
      | pid :: pids =>
          e <== rec (QPid pid false);
          match e with Some ev => dret (Some ev) | None => poll pids end
      end.
    (** ptrace/debugger/debugger.py 173-185: one round of the loop *)
    Definition wait_any_ (pause : Z) (blocking : bool) : D (option event) :=
      st <== dget_state;
      match map fst (d_dict st) with
      | [] => draise EIndexError
      | [pid] => rec (QPid pid blocking)
      | pids =>
          e <== poll pids;
          match e with
          | Some ev => dret (Some ev)
          | None =>
              if negb blocking then dret None
              else
                let pause := Z.min (pause * 2) 500 in
                _ <== request (KSleep pause);
                rec (QAny pause blocking)
          end
      end.

    (** ptrace/debugger/process.py 334-353: one round of the loop; waitEvent is lines 732-733 *)
    Definition waitExit_ (id : nat) : D (option event) :=
      q <== get_proc id;
      e <== rec (QPid (pr_pid q) true);
      match e with
      | Some (ProcessExit _ _ _) => dret None
      | Some (ProcessSignal signum who) =>
          _ <== cont id (if (signum =? SIGTRAP) || (signum =? SIGSTOP) then 0 else signum);
          rec (QExit id)
      | Some ev => dthrow ev
      | None => draise ETypeError
      end.
  End Rec.

  (** All waiting functions; [fuel] bounds the number of rounds and nested calls. *)
  Fixpoint wait (fuel : nat) (q : wquery) : D (option event) :=
    match fuel with
    | O => draise EDiverges
    | S fuel =>
        match q with
        | QPid pid blocking => wait_event_pid_ (wait fuel) pid blocking
        | QAny pause blocking => wait_any_ (wait fuel) pause blocking
        | QExit id => waitExit_ (wait fuel) id
        end
    end.

  (** ptrace/debugger/debugger.py 187-193 *)
  Definition waitProcessEvent (fuel : nat) (pid : option Z) (blocking : bool) : D (option event) :=
    wait fuel (wait_event_query pid blocking).
  (** ptrace/debugger/debugger.py 195-209 *)
  Definition waitSignals (fuel : nat) : list Z -> option Z -> D event := waitSignals_ (wait fuel).
  (** ptrace/debugger/debugger.py 211-223; process.py 738-739 *)
  Definition waitSyscall (fuel : nat) (process : option nat) : D event :=
    st <== dget_state;
    let signum := if d_sysgood st then Z.lor SIGTRAP 0x80 else SIGTRAP in
    match process with
    | Some id => q <== get_proc id; waitSignals fuel [signum] (Some (pr_pid q))
    | None => waitSignals fuel [signum] None
    end.
  (** ptrace/debugger/debugger.py 74-102 *)
  Definition addProcess (fuel : nat) : Z -> bool -> option nat -> bool -> D nat := addProcess_ (wait fuel).
  Definition processStatus (fuel : nat) : nat -> Z -> D event := processStatus_ (wait fuel).
  Definition waitExit (fuel : nat) (id : nat) : D unit := _ <== wait fuel (QExit id); dret tt.

  (** Which exceptions are PtraceErrors, and their errno attribute (ptrace/error.py 55-63) *)
  Definition ptrace_errno (e : exn) : option (option Z) :=
    match e with
    | EPtraceError n => Some n
    | EProcessError | EDebuggerError => Some None
    | _ => None
    end.
  (** ptrace/debugger/process.py 312-332 *)
  Definition terminate (fuel : nat) (id : nat) (wait_exit : bool) : D bool :=
    q <== get_proc id;
    if negb (pr_running q) || negb (pr_was_attached q) then dret true
    else
      done <== (fun st =>
                  match (if pr_is_stopped q then cont id SIGKILL else kill id SIGKILL) st with
                  | (st, Ret _) => (st, Ret false)
                  | (st, Raise (XErr e)) =>
                      match ptrace_errno e with
                      | Some (Some n) => if n =? ESRCH then (st, Ret true) else (st, Raise (XErr e))
                      | _ => (st, Raise (XErr e))
                      end
                  | (st, Raise x) => (st, Raise x)
                  end);
      if done : bool then _ <== notRunning id; dret true
      else if negb wait_exit then dret false
      else _ <== waitExit fuel id; _ <== notRunning id; dret true.

  (** ptrace/debugger/debugger.py 104-114 *)
  Fixpoint quit_loop (fuel : nat) (l : list nat) : D unit :=
    match l with
    | [] => dret tt
    | id :: l =>
        _ <== terminate fuel id true;
        _ <== detach id;
        quit_loop fuel l
    end.
  Definition quit (fuel : nat) : D unit :=
    st <== dget_state;
    quit_loop fuel (rev (d_list st)).

  (** ptrace/debugger/debugger.py 243-284 *)
  Definition set_opts (st : dstate) (o : Z) (tf te tc sg : bool) : dstate :=
    DState (d_procs st) (d_dict st) (d_list st) o tf te tc sg (d_calls st).
  Definition traceFork : D unit :=
    fun st =>
      if negb (has_ptrace_events p) then (st, Raise (XErr EDebuggerError))
      else (set_opts st (Z.lor (d_options st) (Z.lor PTRACE_O_TRACEFORK PTRACE_O_TRACEVFORK)) true
              (d_trace_exec st) (d_trace_clone st) (d_sysgood st), Ret tt).
  Definition traceExec : D unit :=
    fun st =>
      if negb (has_ptrace_events p) then (st, Ret tt)
      else (set_opts st (Z.lor (d_options st) PTRACE_O_TRACEEXEC) (d_trace_fork st) true (d_trace_clone st) (d_sysgood st), Ret tt).
  Definition traceClone : D unit :=
    fun st =>
      if negb (has_ptrace_events p) then (st, Ret tt)
      else (set_opts st (Z.lor (d_options st) PTRACE_O_TRACECLONE) (d_trace_fork st) (d_trace_exec st) true (d_sysgood st), Ret tt).
  Definition enableSysgood : D unit :=
    fun st =>
      if negb (has_ptrace_events p) then (st, Ret tt)
      else (set_opts st (Z.lor (d_options st) PTRACE_O_TRACESYSGOOD) (d_trace_fork st) (d_trace_exec st) (d_trace_clone st) true, Ret tt).
  (** ptrace/debugger/debugger.py 64-72 *)
  Definition new_debugger : dstate :=
    fst (enableSysgood (DState [] [] [] 0 false false false false [])).
End Debugger.
