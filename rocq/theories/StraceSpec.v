(** * StraceSpec: vocabulary for statements about strace.py. *)
From Coq Require Import ZArith List Ascii String Bool.
From Verif Require Import PyBase Platform RegModel TabModel TabSpec ArgModel DbgModel SysModel StraceModel.
Import ListNotations.
Open Scope Z_scope.

(** ** Exit status (C49) *)

(** The history of events, latest first: the exit code of the last process that exited with a code, or 128 + n if signal n
    came after it; 0 if there was neither. *)
Fixpoint last_code (l : list (bool * event)) : Z :=
  match l with
  | [] => 0
  | (true, ProcessExit _ _ (Some code)) :: _ => code
  | (true, ProcessSignal signum _) :: _ => 128 + signum
  | _ :: l => last_code l
  end.

(** What leaves _main() itself: exit() and the end of the fuel of the model. *)
Definition not_exception (e : exn) : bool := match e with ESystemExit _ | EDiverges => true | _ => false end.
(** The exit code for what leaves runDebugger() *)
Definition failure_code (x : dexn) : Z :=
  match x with
  | XEvent (ProcessExit _ _ (Some code)) => code
  | XEvent (ProcessExit _ _ None) => 0
  | XEvent _ => 1
  | XErr e => match ptrace_errno e with Some (Some n) => n | Some None => 0 | None => 1 end
  end.

(** ** Resuming (C51) *)

(** Requests that resume or kill a process. *)
Definition resuming (c : kcall) : bool := match c with KCont _ _ _ | KSyscall _ _ _ | KStep _ _ | KKill _ _ _ => true | _ => false end.
Definition process_pid (d : dstate) (id : nat) (pid : Z) : Prop := exists q, nth_error (d_procs d) id = Some q /\ pr_pid q = pid.
Definition process_parent (d : dstate) (id parent : nat) : Prop := exists q, nth_error (d_procs d) id = Some q /\ pr_parent q = Some parent.
(** The process is about to return from a successful (as far as strace knows) execve(), whose SIGTRAP is skipped. *)
Definition leaves_execve (st : tstate) (id : nat) : Prop :=
  ss_exit (state_of st id) = true /\ ss_name (state_of st id) = Some (T "execve") /\ d_trace_exec (t_dbg st) = false.
(** The answer to an event: the requests in order. *)
Inductive answered (st : tstate) (d : dstate) : bool -> event -> list kcall -> Prop :=
| an_exit id s c : answered st d true (ProcessExit id s c) []
| an_signal id pid signum : process_pid d id pid ->
    answered st d true (ProcessSignal signum id) [KSyscall id pid (if signum =? 5 then 0 else signum)]
| an_new id pid parent ppid : process_pid d id pid -> process_parent d id parent -> process_pid d parent ppid ->
    answered st d true (NewProcessEvent id) [KSyscall id pid 0; KSyscall parent ppid 0]
| an_exec id pid : process_pid d id pid -> answered st d true (ProcessExecution id) [KSyscall id pid 0]
| an_stop id signum pid : process_pid d id pid -> ~ leaves_execve st id ->
    answered st d false (ProcessSignal signum id) [KSyscall id pid 0]
| an_execve id signum pid : process_pid d id pid -> leaves_execve st id ->
    answered st d false (ProcessSignal signum id) [KSyscall id pid 0; KSyscall id pid 0].

(** ** Filters (C50) *)

(** The name of a system call number *)
Definition call_name (p : platform) (number : Z) (name : text) : Prop :=
  has_number p number name \/ (forall x, ~ has_number p number x) /\ name = T "syscall<" ++ str_int number ++ T ">".
(** The filters: a list of names (empty: all), a regular expression *)
Definition selected (o : soptions) (only : list text) (name : text) : Prop :=
  (only = [] \/ In name only) /\ forall matches, s_regex o = Some matches -> matches name = false.
(** The processes strace has prepared: the first one and those it has announced *)
Definition known_process (log : list tline) (id : nat) : Prop := id = O \/ exists t, In (LNewProcess id t) log.
(** What --syscalls, --filename and --socket ask for *)
Definition listed (s : text) (name : text) : Prop :=
  exists items item, (forall x, In x items -> ~ In ","%char x) /\ s = join [","%char] items /\ In item items /\ name = strip item /\ name <> [].
Definition takes_filename (name : text) : Prop :=
  exists restype formats ty nm, has_prototype name restype formats /\ In (ty, nm) formats /\ In nm FILENAME_ARGUMENTS.
Definition asked_for (socket_names : list text) (o : soptions) (name : text) : Prop :=
  (exists s, s_syscalls o = Some s /\ listed s name) \/
  (s_filename o = true /\ takes_filename name) \/
  (s_socket o = true /\ In name socket_names).

(** ** Lines (C82) *)

(** [text] on the left of at least [width] columns *)
Definition in_columns (width : nat) (text : text) : PyBase.text := text ++ repeat " "%char (width - List.length text).
Definition bracketed (x : option text) : text := match x with Some t => T "[" ++ t ++ T "]" | None => [] end.
(** The line of a call: process, address of the instruction, the call itself, its result *)
Definition shown_line (pid ip : option text) (call : text) (result : option text) : text :=
  (match pid, ip with None, None => [] | _, _ => bracketed pid ++ bracketed ip ++ T " " end) ++
  match result with Some r => in_columns 40 call ++ T " = " ++ r | None => call end.
(** The call as it is shown *)
Definition shown (c c' : syscall_call) : Prop :=
  c_number c' = c_number c /\ c_result c' = c_result c /\ c_result_text c' = c_result_text c /\ c_instr_pointer c' = c_instr_pointer c.

(** ** Start and end (C108) *)

(** The state after a line has been logged; nothing else has changed. *)
Definition wrote (l : tline) (st : tstate) : tstate := TState (t_dbg st) (t_sys st) (t_ready st) (l :: t_log st) (t_seen st).
Definition with_debugger (st : tstate) (d : dstate) : tstate := TState d (t_sys st) (t_ready st) (t_log st) (t_seen st).
(** The line that shows the creation of the program *)
Definition execve_line (program0 : text) (program : list text) (pid : Z) : text :=
  T "execve(" ++ program0 ++ T ", [" ++ join (T ", ") (map repr_ascii program) ++ T "], [/* 40 vars */]) = " ++ str_int pid.
(** Why a process can not be added: it has ended, or ptrace() has failed (PtraceError and its subclasses). *)
Definition not_added (x : dexn) : Prop :=
  match x with
  | XEvent (ProcessExit _ _ _) => True
  | XErr (EPtraceError _) | XErr EProcessError | XErr EDebuggerError => True
  | _ => False
  end.
(** What becomes of the attempt to add a process: the process, or a report and no process, or the exception. *)
Inductive adds (st : tstate) : dstate * out nat -> tstate * out (option nat) -> Prop :=
| adds_process d id : adds st (d, Ret id) (with_debugger st d, Ret (Some id))
| adds_report d x : not_added x -> adds st (d, Raise x) (wrote (LError x) (with_debugger st d), Ret None)
| adds_error d x : ~ not_added x -> adds st (d, Raise x) (with_debugger st d, Raise x).
(** The events of ptrace() that --fork, --trace-exec and --trace-clone ask for *)
Definition asked_events (o : soptions) : Z :=
  Z.lor (if s_fork o then Z.lor PTRACE_O_TRACEFORK PTRACE_O_TRACEVFORK else 0)
        (Z.lor (if s_trace_exec o then PTRACE_O_TRACEEXEC else 0) (if s_trace_clone o then PTRACE_O_TRACECLONE else 0)).
