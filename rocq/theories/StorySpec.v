(** * StorySpec: what a program does while strace.py watches it, and what strace.py should write about it. *)
From Coq Require Import ZArith List Ascii String Bool.
From Verif Require Import PyBase Platform IntModel RegModel SigModel ArgModel DbgModel DbgSpec SysModel StraceModel StraceSpec.
Import ListNotations.
Open Scope Z_scope.

(** ** Programs *)

(** What the program does between its start and its end.  A [stop] is what the debugger can read of the stopped process
    (registers and memory).
    [ACall a b]: a system call other than execve(), entered with [a] and left with [b].
    [AExec a b z]: execve(), entered with [a] and left with [b]; [z] is the process after the SIGTRAP that follows.
    [AExecTraced a b]: execve() with --trace-exec: the kernel reports an event between the entry and the return.
    [ASignal s]: the signal [s] arrives. *)
Inductive act : Type :=
| ACall (a b : stop)
| AExec (a b z : stop)
| AExecTraced (a b : stop)
| ASignal (signum : Z).
(** The end, between two calls or inside a call entered with [a]; [z] is what can be read afterwards. *)
Inductive ending : Type :=
| Ended (m : status_meaning)
| EndedInside (a z : stop) (m : status_meaning).

(** Signal 5 with the bit that PTRACE_O_TRACESYSGOOD adds to system call stops *)
Definition CALL_STOP : status_meaning := Stopped 133.
Definition deadly (m : status_meaning) : Prop := match m with Exited _ | Killed _ _ => valid m | _ => False end.

(** The kernel runs the program as the process [pid]: the answers to the requests number [n], [n + 1], ... of the
    debugger, which refers to the process as [id]. *)
Section Runs.
  Context (K : dkernel) (stops : nat -> nat -> stop) (pid : Z) (id : nat).
  (** waitpid() reports a change of state *)
  Definition reports (n : nat) (m : status_meaning) : Prop := k_wait K n pid 0 = Ok (pid, encode m).
  (** PTRACE_SYSCALL works *)
  Definition resumes (n : nat) (signum : Z) : Prop := k_do K n (KSyscall id pid signum) = Ok tt.
  Fixpoint performs (n : nat) (l : list act) (after : nat -> Prop) : Prop :=
    match l with
    | [] => after n
    | ACall a b :: l =>
        reports n CALL_STOP /\ stops (1 + n)%nat id = a /\ resumes (1 + n) 0 /\
        reports (2 + n) CALL_STOP /\ stops (3 + n)%nat id = b /\ resumes (3 + n) 0 /\
        performs (4 + n) l after
    | AExec a b z :: l =>
        reports n CALL_STOP /\ stops (1 + n)%nat id = a /\ resumes (1 + n) 0 /\
        reports (2 + n) CALL_STOP /\ stops (3 + n)%nat id = b /\ resumes (3 + n) 0 /\
        reports (4 + n) (Stopped 5) /\ stops (5 + n)%nat id = z /\ resumes (5 + n) 0 /\
        performs (6 + n) l after
    | AExecTraced a b :: l =>
        reports n CALL_STOP /\ stops (1 + n)%nat id = a /\ resumes (1 + n) 0 /\
        reports (2 + n) (TraceEvent PTRACE_EVENT_EXEC) /\ resumes (3 + n) 0 /\
        reports (4 + n) CALL_STOP /\ stops (5 + n)%nat id = b /\ resumes (5 + n) 0 /\
        performs (6 + n) l after
    | ASignal signum :: l =>
        (1 <= signum < 128 /\ reports n (Stopped signum)) /\ k_do K (1 + n) (KDisplay id signum) = Ok tt /\
        resumes (2 + n) (if signum =? 5 then 0 else signum) /\
        performs (3 + n) l after
    end.
  Definition ends (e : ending) (n : nat) : Prop :=
    match e with
    | Ended m => deadly m /\ reports n m
    | EndedInside a z m =>
        reports n CALL_STOP /\ stops (1 + n)%nat id = a /\ resumes (1 + n) 0 /\
        deadly m /\ reports (2 + n) m /\ stops (3 + n)%nat id = z
    end.
End Runs.

(** What the debugger asks for: the process is resumed after every stop, with its signal.  The signal 5 is lost (see C33). *)
Section Asks.
  Context (pid : Z) (id : nat).
  Definition act_requests (a : act) : list kcall :=
    match a with
    | ACall _ _ => [KWait pid 0; KSyscall id pid 0; KWait pid 0; KSyscall id pid 0]
    | AExec _ _ _ | AExecTraced _ _ => [KWait pid 0; KSyscall id pid 0; KWait pid 0; KSyscall id pid 0; KWait pid 0; KSyscall id pid 0]
    | ASignal signum => [KWait pid 0; KDisplay id signum; KSyscall id pid (if signum =? 5 then 0 else signum)]
    end.
  Definition end_requests (e : ending) : list kcall :=
    match e with
    | Ended _ => [KWait pid 0]
    | EndedInside _ _ _ => [KWait pid 0; KSyscall id pid 0; KWait pid 0]
    end.
End Asks.

(** ** Lines *)

Section Lines.
  Context (p : platform) (ns : namespace) (repr_fs : list byte -> text) (errorcode : list (Z * text)) (strerror : Z -> text)
          (o : soptions) (only : list text) (pid : Z) (id : nat).
  (** The call whose entry is [a] (see C36) *)
  Definition enters (a : stop) (c : syscall_call) : Prop := exists regs, st_regs a = Ok regs /\ new_syscall p regs = Ok c.
  Definition call_is (a : stop) (name : text) : Prop := exists c, enters a c /\ f_name (c_func c) = name.
  Definition with_arguments (a : stop) (c c' : syscall_call) : Prop :=
    exists regs, st_regs a = Ok regs /\ enter p ns repr_fs (syscall_options o) (st_view a) (st_sp a) regs c = Ok c'.
  (** The line of a call when the memory of the process is [z]: see C37 for [format] *)
  Definition line_of (z : stop) (c c' : syscall_call) (l : tline) : Prop :=
    exists t, format p ns repr_fs (syscall_options o) (st_view z) (c_func c) = Ok (c_func c', t) /\ shown c c' /\
      l = LSyscall id c'
            (shown_line (if s_show_pid o || s_fork o then Some (str_int pid) else None)
                        (if s_show_ip o then Some (match c_instr_pointer c with Some ip => formatAddress p ip | None => T "NULL" end) else None)
                        t (match c_result c with Some _ => Some (get (c_result_text c)) | None => None end)).
  (** --enter: the entry is a line of its own *)
  Definition announced (a : stop) (c c' : syscall_call) (l : list tline) : Prop :=
    if s_enter o then exists x, line_of a c c' x /\ l = [x] else c' = c /\ l = [].
  (** A call that returns: hidden by the filters, or shown with its result (see C35).  The lines of its entry and of its return *)
  Inductive call_lines (a b z : stop) : list tline -> list tline -> Prop :=
  | call_hidden c : enters a c -> ~ selected o only (f_name (c_func c)) -> call_lines a b z [] []
  | call_shown c c0 c1 c2 c3 t l x : enters a c -> selected o only (f_name (c_func c)) -> with_arguments a c c0 -> announced a c0 c1 l ->
      exit_ p errorcode strerror (st_result b) c1 = Ok (c2, t) -> line_of z c2 c3 x -> call_lines a b z l [x].
  Definition execution_line : tline := LLine (T "*** Process " ++ str_int pid ++ T " execution ***").
  (** The whole story.  Without --trace-exec an execve() is only understood if it works (see C51). *)
  Inductive story : list act -> list tline -> Prop :=
  | story_nil : story [] []
  | story_call a b l1 l2 acts l : call_lines a b b l1 l2 -> (call_is a (T "execve") -> s_trace_exec o = true) -> story acts l ->
      story (ACall a b :: acts) (l1 ++ l2 ++ l)
  | story_exec a b z l1 l2 acts l : call_lines a b z l1 l2 -> call_is a (T "execve") -> s_trace_exec o = false -> story acts l ->
      story (AExec a b z :: acts) (l1 ++ l2 ++ l)
  | story_executed a b l1 l2 acts l : call_lines a b b l1 l2 -> s_trace_exec o = true -> story acts l ->
      story (AExecTraced a b :: acts) (l1 ++ execution_line :: l2 ++ l)
  | story_signal s acts l : story acts l -> story (ASignal s :: acts) l.   (* the report is not represented, see KDisplay *)

  Definition end_line (m : status_meaning) : tline :=
    LLine (T "*** " ++ exit_message ns pid (match m with Killed s _ => Some s | _ => None end) (match m with Exited c => Some c | _ => None end) ++ T " ***").
  Inductive end_lines : ending -> list tline -> Prop :=
  | end_plain m : end_lines (Ended m) [end_line m]
  | end_hidden a z m c : enters a c -> ~ selected o only (f_name (c_func c)) -> end_lines (EndedInside a z m) [end_line m]
  | end_announced a z m c c0 c1 x : s_enter o = true -> enters a c -> selected o only (f_name (c_func c)) -> with_arguments a c c0 -> line_of a c0 c1 x ->
      end_lines (EndedInside a z m) [x; end_line m]
  | end_shown a z m c c0 c1 x : s_enter o = false -> enters a c -> selected o only (f_name (c_func c)) -> with_arguments a c c0 -> line_of z c0 c1 x ->
      end_lines (EndedInside a z m) [x; end_line m].
End Lines.

(** ** Exit status *)
(** The code of the last signal, if any *)
Fixpoint signal_code (acts : list act) (code : Z) : Z :=
  match acts with
  | [] => code
  | ASignal s :: acts => signal_code acts (128 + s)
  | _ :: acts => signal_code acts code
  end.
Definition meaning (e : ending) : status_meaning := match e with Ended m | EndedInside _ _ m => m end.
Definition final_code (acts : list act) (e : ending) : Z :=
  match meaning e with Exited c => c | _ => signal_code acts 0 end.

(** ** The beginning *)
(** The options of PTRACE_SETOPTIONS: PTRACE_O_TRACESYSGOOD (1) and the events that were asked for (see C108) *)
Definition all_options (o : soptions) : Z := Z.lor 1 (asked_events o).
(** [begins o child K pid first asked]: the program is started (or attached, with --pid), [first] is the first line and
    [asked] the requests until it is resumed for the first time. *)
Inductive begins (o : soptions) (child : res Z) (K : dkernel) (pid : Z) : tline -> list kcall -> Prop :=
| begins_program x l : child = Ok pid -> (forall n, s_pid o = Some n -> n = 0) -> s_program o = x :: l ->
    reports K pid 0 (Stopped 5) -> k_do K 1 (KSetOptions 0 pid (all_options o)) = Ok tt -> resumes K pid 0 2 0 ->
    begins o child K pid (LLine (execve_line x (x :: l) pid)) [KWait pid 0; KSetOptions 0 pid (all_options o); KSyscall 0 pid 0]
| begins_attach : s_pid o = Some pid -> k_do K 0 (KAttach pid) = Ok tt ->
    reports K pid 1 (Stopped 19) -> k_do K 2 (KSetOptions 0 pid (all_options o)) = Ok tt -> resumes K pid 0 3 0 ->
    begins o child K pid (LLine (T "Attach process " ++ str_int pid)) [KAttach pid; KWait pid 0; KSetOptions 0 pid (all_options o); KSyscall 0 pid 0].
