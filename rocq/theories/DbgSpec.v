(** * DbgSpec: vocabulary for statements about the debugger. *)
From Coq Require Import ZArith List Bool.
From Verif Require Import PyBase Platform DbgModel.
Import ListNotations.
Open Scope Z_scope.

(** Everything a user of the library can ask of a debugger and its processes. *)
Inductive op : Type :=
| OpAdd (fuel : nat) (pid : Z) (is_attached : bool) (parent : option nat) (is_thread : bool)
| OpWait (fuel : nat) (pid : option Z) (blocking : bool)
| OpWaitSignals (fuel : nat) (signals : list Z) (pid : option Z)
| OpWaitSyscall (fuel : nat) (process : option nat)
| OpWaitExit (fuel : nat) (process : nat)
| OpTerminate (fuel : nat) (process : nat) (wait_exit : bool)
| OpQuit (fuel : nat)
| OpDetach (process : nat)
| OpDelete (process : nat)
| OpDeletePid (pid : Z)
| OpCont (process : nat) (signum : Z)
| OpSyscall (process : nat) (signum : Z)
| OpStep (process : nat)
| OpKill (process : nat) (signum : Z)
| OpSetOptions (process : nat) (options : Z)
| OpTraceFork | OpTraceExec | OpTraceClone | OpSysgood.
(** The state after the call, whether it returned or raised. *)
Definition run_op (K : dkernel) (p : platform) (o : op) (st : dstate) : dstate :=
  match o with
  | OpAdd f pid a par th => fst (addProcess K p f pid a par th st)
  | OpWait f pid b => fst (waitProcessEvent K p f pid b st)
  | OpWaitSignals f l pid => fst (waitSignals K p f l pid st)
  | OpWaitSyscall f q => fst (waitSyscall K p f q st)
  | OpWaitExit f q => fst (waitExit K p f q st)
  | OpTerminate f q w => fst (terminate K p f q w st)
  | OpQuit f => fst (quit K p f st)
  | OpDetach q => fst (detach K q st)
  | OpDelete q => fst (deleteProcess q st)
  | OpDeletePid pid => fst (deleteProcess_pid pid st)
  | OpCont q s => fst (cont K q s st)
  | OpSyscall q s => fst (syscall K p q s st)
  | OpStep q => fst (singleStep K q st)
  | OpKill q s => fst (kill K q s st)
  | OpSetOptions q o => fst (setoptions K p q o st)
  | OpTraceFork => fst (traceFork p st)
  | OpTraceExec => fst (traceExec p st)
  | OpTraceClone => fst (traceClone p st)
  | OpSysgood => fst (enableSysgood p st)
  end.
Definition reachable (K : dkernel) (p : platform) (st : dstate) : Prop :=
  exists ops, st = fold_left (fun s o => run_op K p o s) ops (new_debugger p).

(** The same without direct calls of deleteProcess(), which nothing in the library makes before the process is detached. *)
Definition direct_delete (o : op) : bool := match o with OpDelete _ | OpDeletePid _ => true | _ => false end.
Definition reachable_plain (K : dkernel) (p : platform) (st : dstate) : Prop :=
  exists ops, forallb (fun o => negb (direct_delete o)) ops = true /\ st = fold_left (fun s o => run_op K p o s) ops (new_debugger p).

(** dict and list contain the same objects, each once, in registration order, under their own pid. *)
Definition registry_ok (st : dstate) : Prop :=
  d_list st = map snd (d_dict st) /\ NoDup (map fst (d_dict st)) /\ NoDup (d_list st) /\
  forall pid id, In (pid, id) (d_dict st) -> exists q, nth_error (d_procs st) id = Some q /\ pr_pid q = pid.

Definition registered (st : dstate) (id : nat) : Prop := In id (d_list st).
Definition attached (st : dstate) (id : nat) : Prop :=
  exists q, nth_error (d_procs st) id = Some q /\ pr_is_attached q = true.
Definition alive (st : dstate) (id : nat) : Prop :=
  exists q, nth_error (d_procs st) id = Some q /\ pr_running q = true.
(** Created by the debugger, or inherited by fork. *)
Definition started (st : dstate) (id : nat) : Prop :=
  exists q, nth_error (d_procs st) id = Some q /\ pr_was_attached q = true.
Definition has_pid (st : dstate) (id : nat) (pid : Z) : Prop :=
  exists q, nth_error (d_procs st) id = Some q /\ pr_pid q = pid.

(** Number of PTRACE_DETACH requests for a process object. *)
Definition is_detach_of (id : nat) (c : kcall) : bool :=
  match c with KDetach i _ => Nat.eqb i id | _ => false end.
Definition detaches (id : nat) (calls : list kcall) : nat := List.length (filter (is_detach_of id) calls).

(** The requests of [st'] are those of [st] and, after them, [new] (oldest first). *)
Definition made (st st' : dstate) (new : list kcall) : Prop := d_calls st' = rev new ++ d_calls st.

(** ** Wait statuses as the kernel builds them (wait(2)) *)
Inductive status_meaning : Type :=
| Exited (code : Z)
| Killed (signum : Z) (core : bool)
| Stopped (signum : Z)
| TraceEvent (ev : Z).
Definition encode (m : status_meaning) : Z :=
  match m with
  | Exited code => code * 256
  | Killed signum core => signum + (if core then 128 else 0)
  | Stopped signum => signum * 256 + 127
  | TraceEvent ev => ev * 65536 + 5 * 256 + 127
  end.
Definition valid (m : status_meaning) : Prop :=
  match m with
  | Exited code => 0 <= code < 256
  | Killed signum _ => 1 <= signum < 127
  | Stopped signum => 0 <= signum < 256
  | TraceEvent ev => 0 < ev < 256
  end.
(** The other 32-bit values. *)
Definition meaningless (status : Z) : Prop :=
  status mod 128 = 127 /\ status mod 256 <> 127.

(** ** Polling: [st'] is [st] after asking, without blocking, for the processes [pids] in order, none of which had
    anything to report. *)
Inductive quiet (K : dkernel) (p : platform) : dstate -> list Z -> dstate -> Prop :=
| quiet_nil st : quiet K p st [] st
| quiet_cons st pid id q status pids st' :
    dget Z.eqb pid (d_dict st) = Some id -> nth_error (d_procs st) id = Some q ->
    let flags := if pr_is_thread q then Z.lor WNOHANG (thread_trace_flags p) else WNOHANG in
    k_wait K (List.length (d_calls st)) pid flags = Ok (0, status) ->
    quiet K p (add_call st (KWait pid flags)) pids st' ->
    quiet K p st (pid :: pids) st'.

(** ** Waiting for the end: [st'] is reached from [st] by waiting for events of the process, redelivering signals other
    than SIGTRAP and SIGSTOP, until it has exited. *)
Definition redelivered (signum : Z) : Z := if (signum =? 5) || (signum =? 19) then 0 else signum.
Inductive waits_exit (K : dkernel) (p : platform) (id : nat) (pid : Z) : dstate -> dstate -> Prop :=
| we_exit f st st' who s c :
    wait K p f (QPid pid true) st = (st', Ret (Some (ProcessExit who s c))) -> waits_exit K p id pid st st'
| we_signal f st st1 st2 st' signum who :
    wait K p f (QPid pid true) st = (st1, Ret (Some (ProcessSignal signum who))) ->
    st2 = add_call st1 (KCont id pid (redelivered signum)) ->
    waits_exit K p id pid (set_procs st2 (upd_nth id (set_stopped false) (d_procs st2))) st' ->
    waits_exit K p id pid st st'.

(** ** Effects *)
(** The process has been marked as not running and, if it was attached, has left the debugger; nothing was asked of the
    kernel and no other process has changed. *)
Definition left_debugger (st : dstate) (id : nat) (st' : dstate) : Prop :=
  ~ alive st' id /\ d_calls st' = d_calls st /\
  (forall i, i <> id -> nth_error (d_procs st') i = nth_error (d_procs st) i) /\
  (attached st id -> registry_ok st ->
     ~ registered st' id /\ ~ attached st' id /\ forall i, i <> id -> registered st i -> registered st' i) /\
  (~ attached st id -> d_dict st' = d_dict st /\ d_list st' = d_list st).
(** The process is marked as stopped (or not), nothing else changes. *)
Definition with_stopped (st : dstate) (id : nat) (b : bool) : dstate :=
  set_procs st (upd_nth id (set_stopped b) (d_procs st)).

(** The event concerns the process, or a child it has just created. *)
Definition event_about (st : dstate) (id : nat) (ev : event) : Prop :=
  match ev with
  | ProcessExit i _ _ | ProcessExecution i | ProcessSignal _ i => i = id
  | NewProcessEvent c => exists q, nth_error (d_procs st) c = Some q /\ pr_parent q = Some id
  end.
Definition is_event {A} (r : out A) : bool := match r with Raise (XEvent _) => true | _ => false end.

(** Every registered process is attached. *)
Definition clean (st : dstate) : Prop := forall id, registered st id -> attached st id.

(** Requests that resume, signal or kill a process. *)
Definition signals_to (id : nat) (c : kcall) : bool :=
  match c with KCont i _ _ | KSyscall i _ _ | KStep i _ | KKill i _ _ => Nat.eqb i id | _ => false end.
Definition is_kill (c : kcall) : bool := match c with KKill _ _ _ => true | _ => false end.

(** A kernel that accepts every request and reports every waited-for process as killed by SIGKILL. *)
Definition obliging (K : dkernel) : Prop :=
  (forall n c, k_do K n c = Ok tt) /\ forall n pid flags, k_wait K n pid flags = Ok (pid, 9).
(** What quit() then asks for one process. *)
Definition farewell (p : platform) (q : proc) (id : nat) : list kcall :=
  if pr_running q then
    if pr_was_attached q then
      [if pr_is_stopped q then KCont id (pr_pid q) 9 else KKill id (pr_pid q) 9;
       KWait (pr_pid q) (if pr_is_thread q then thread_trace_flags p else 0)]
    else [KDetach id (pr_pid q)]
  else [].
(** ** C100: options.  [option_bit k]: the bit of PTRACE_SETOPTIONS (sys/ptrace.h): 0 SYSGOOD, 1 FORK, 2 VFORK, 3 CLONE, 4 EXEC *)
Definition same_but_options (st st' : dstate) : Prop :=
  d_procs st' = d_procs st /\ d_dict st' = d_dict st /\ d_list st' = d_list st /\ d_calls st' = d_calls st.
(** [bits] are added to the options, no other bit changes *)
Definition adds_bits (bits : list Z) (st st' : dstate) : Prop :=
  forall k, 0 <= k -> Z.testbit (d_options st') k = Z.testbit (d_options st) k || existsb (Z.eqb k) bits.
