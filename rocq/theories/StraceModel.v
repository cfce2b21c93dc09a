(** * StraceModel: the system call tracer (strace.py, ptrace/debugger/application.py). *)
From Coq Require Import ZArith List Ascii String Bool.
From Verif Require Import PyBase Platform IntModel RegModel SigModel TabModel ToolsModel ArgModel DbgModel SysModel ProcModel.
Import ListNotations.
Open Scope Z_scope.

(** ** Options *)

(** The options of strace.py 42-76 and of application.py 81-93, as OptionParser gives them.  Left out: --output,
    --profiler, --list-syscalls, the logging options (all messages of strace.py have the level ERROR, which is always
    shown) and --no-stdout (see ChildModel).  [s_regex]: the compiled --ignore-regex, as the test whether match()
    succeeds (a regular expression that does not compile ends the program, strace.py 123-128). *)
Record soptions : Type := SOptions {
  s_pid : option Z;
  s_program : list text;
  s_enter : bool;
  s_type : bool;
  s_name : bool;
  s_string_length : Z;
  s_array_count : Z;
  s_raw_socketcall : bool;
  s_regex : option (text -> bool);
  s_address : bool;
  s_syscalls : option text;
  s_socket : bool;
  s_filename : bool;
  s_show_pid : bool;
  s_show_ip : bool;
  s_fork : bool;
  s_trace_exec : bool;
  s_trace_clone : bool
}.

Definition mem (x : text) (l : list text) : bool := existsb (text_eqb x) l.
Definition set_add (x : text) (l : list text) : list text := if mem x l then l else l ++ [x].
(** strace.py 97-113: one item.  A set is a list without duplicates in order of insertion; the iteration of line 103 is
    in this order.  [inr]: the lines printed before exit(1). *)
Definition only_item (valid_names : list text) (only : list text) (item : text) : list text + list text :=
  let item := strip item in
  if (match item with [] => true | _ => false end) || mem item only then inl only
  else
    match filter (fun name => negb (mem name valid_names)) only with
    | [] => inl (set_add item only)
    | unknown => inr (map (fun name => T "ERROR: unknown syscall " ++ repr_ascii name) unknown ++
                      [[]; T "Use --list-syscalls options to get system calls list"])
    end.
Fixpoint only_items (valid_names : list text) (only : list text) (items : list text) : list text + list text :=
  match items with
  | [] => inl only
  | item :: items => match only_item valid_names only item with
                     | inl only => only_items valid_names only items
                     | inr lines => inr lines
                     end
  end.
(** strace.py 115-118 *)
Definition filename_syscalls : list text :=
  map fst (filter (fun entry => existsb (fun a => mem (snd a) FILENAME_ARGUMENTS) (snd (snd entry))) SYSCALL_PROTOTYPES).
(** strace.py 93-121 *)
Definition only_filter (names : list (Z * text)) (socket_names : list text) (o : soptions) : list text + list text :=
  match (match s_syscalls o with
         | Some (c :: t) => only_items (map snd names) [] (split_char ","%char (c :: t))
         | _ => inl []
         end) with
  | inr lines => inr lines
  | inl only =>
      let only := if s_filename o then fold_left (fun l x => set_add x l) filename_syscalls only else only in
      inl (if s_socket o then fold_left (fun l x => set_add x l) socket_names only else only)
  end.
Definition parse_filter (p : platform) (o : soptions) : res (list text + list text) :=
  do names <- SYSCALL_NAMES p;
  do socket_names <- SOCKET_SYSCALL_NAMES p;
  Ok (only_filter names socket_names o).
(** strace.py 132-133 *)
Definition show_pid (o : soptions) : bool := s_show_pid o || s_fork o.
(** strace.py 233-241 *)
Definition syscall_options (o : soptions) : options :=
  Options (s_type o) (s_name o) (negb (s_raw_socketcall o)) (s_string_length o) (s_address o) (s_array_count o) (s_show_ip o).

(** ** The tracer *)

(** What is logged.  The texts of errors are not represented. *)
Inductive tline : Type :=
| LSyscall (process : nat) (c : syscall_call) (t : text)   (* displaySyscall *)
| LNewProcess (process : nat) (t : text)                   (* newProcess *)
| LLine (t : text)
| LError (x : dexn).                                       (* an error message *)

(** [t_sys]: the attribute syscall_state of the processes (absent: as created); [t_ready]: the processes whose
    syscall_state.ignore_callback has been set; [t_log]: latest first; [t_seen]: what waitSyscall() returned or raised, latest
    first (not a variable of the program: it keeps the history for the statements). *)
Record tstate : Type := TState {
  t_dbg : dstate;
  t_sys : list (nat * sstate);
  t_ready : list nat;
  t_log : list tline;
  t_seen : list (bool * event)
}.
Definition TM (A : Type) : Type := tstate -> tstate * out A.
Definition tret {A} (a : A) : TM A := fun st => (st, Ret a).
Definition tthrow {A} (x : dexn) : TM A := fun st => (st, Raise x).
Definition tbind {A B} (m : TM A) (f : A -> TM B) : TM B :=
  fun st => match m st with
            | (st, Ret a) => f a st
            | (st, Raise x) => (st, Raise x)
            end.
Notation "x <~ m ; f" := (tbind m (fun x => f))
  (at level 100, m at level 100, f at level 200, right associativity).
Definition ttry {A} (m : TM A) (h : dexn -> TM A) : TM A :=
  fun st => match m st with
            | (st, Ret a) => (st, Ret a)
            | (st, Raise x) => h x st
            end.
Definition set_dbg (st : tstate) (d : dstate) : tstate := TState d (t_sys st) (t_ready st) (t_log st) (t_seen st).
Definition set_sys (st : tstate) (l : list (nat * sstate)) : tstate := TState (t_dbg st) l (t_ready st) (t_log st) (t_seen st).
Definition tdbg {A} (m : D A) : TM A := fun st => let '(d, o) := m (t_dbg st) in (set_dbg st d, o).
Definition tget : TM tstate := fun st => (st, Ret st).
Definition tlog (l : tline) : TM unit := fun st => (TState (t_dbg st) (t_sys st) (t_ready st) (l :: t_log st) (t_seen st), Ret tt).
Definition tsee (raised : bool) (ev : event) : TM unit :=
  fun st => (TState (t_dbg st) (t_sys st) (t_ready st) (t_log st) ((raised, ev) :: t_seen st), Ret tt).
Definition set_ready (id : nat) : TM unit :=
  fun st => (TState (t_dbg st) (t_sys st) (id :: t_ready st) (t_log st) (t_seen st), Ret tt).
Definition tres {A} (r : res A) : TM A := fun st => (st, match r with Ok a => Ret a | Err e => Raise (XErr e) end).
Definition state_of (st : tstate) (id : nat) : sstate :=
  match dget Nat.eqb id (t_sys st) with Some s => s | None => cleared end.
Definition is_ready (st : tstate) (id : nat) : bool := existsb (Nat.eqb id) (t_ready st).

Section Strace.
  (** [stops n id]: the registers and the memory of the process [id] after [n] requests; [only]: the filter of the options;
      [child]: the result of createChild(); the other arguments as in SysModel. *)
  Context (p : platform) (ns : namespace) (repr_fs : list byte -> text) (errorcode : list (Z * text)) (strerror : Z -> text)
          (K : dkernel) (stops : nat -> nat -> stop) (o : soptions) (only : list text) (child : res Z).

  (** strace.py 137-143 *)
  Definition ignoreSyscall (c : syscall_call) : bool :=
    let name := f_name (c_func c) in
    if (match only with [] => false | _ => true end) && negb (mem name only) then true
    else match s_regex o with
         | Some matches => matches name
         | None => false
         end.

  Definition the_stop (st : tstate) (id : nat) : stop := stops (List.length (d_calls (t_dbg st))) id.
  Definition pid_of (st : tstate) (id : nat) : Z :=
    match nth_error (d_procs (t_dbg st)) id with Some q => pr_pid q | None => 0 end.

  (** strace.py 145-156: the prefix and the line *)
  Definition syscall_line (pid : Z) (c : syscall_call) (text : PyBase.text) : PyBase.text :=
    let text := match c_result c with
                | Some _ => padr 40 " "%char text ++ T " = " ++ get (c_result_text c)
                | None => text
                end in
    let prefix := (if show_pid o then T "[" ++ str_int pid ++ T "]" else []) ++
                  (if s_show_ip o then T "[" ++ (match c_instr_pointer c with Some ip => formatAddress p ip | None => T "NULL" end) ++ T "]" else []) in
    match prefix with [] => text | _ => prefix ++ T " " ++ text end.
  (** The call with the argument texts that format() remembers is returned. *)
  Definition displaySyscall (id : nat) (c : syscall_call) : TM syscall_call :=
    st <~ tget;
    ft <~ tres (format p ns repr_fs (syscall_options o) (st_view (the_stop st id)) (c_func c));
    let c := SyscallCall (fst ft) (c_number c) (c_result c) (c_result_text c) (c_instr_pointer c) in
    _ <~ tlog (LSyscall id c (syscall_line (pid_of st id) c (snd ft)));
    tret c.

  (** state.event(self.syscall_options) *)
  Definition state_event (fuel : nat) (id : nat) : TM (option syscall_call) :=
    fun st =>
      let callback := if is_ready st id then Some ignoreSyscall else None in
      let '((s, d), r) := ss_event p ns repr_fs errorcode strerror K true callback (syscall_options o) fuel id (the_stop st id)
                            (state_of st id, t_dbg st) in
      (set_sys (set_dbg st d) (dset Nat.eqb id s (t_sys st)), r).
  (** The call kept by the state is the displayed object. *)
  Definition keep_call (id : nat) (c : syscall_call) : TM unit :=
    fun st => let s := state_of st id in
              (match ss_syscall s with
               | Some _ => set_sys st (dset Nat.eqb id (SState (Some c) (ss_name s) (ss_exit s)) (t_sys st))
               | None => st
               end, Ret tt).
  Definition proc_syscall (id : nat) (signum : Z) : TM unit := tdbg (syscall K p id signum).

  (** strace.py 191-198 *)
  Definition handle_syscall (fuel : nat) (id : nat) : TM unit :=
    c <~ state_event fuel id;
    _ <~ (match c with
          | Some c => if (match c_result c with Some _ => true | None => false end) || s_enter o
                      then c <~ displaySyscall id c; keep_call id c
                      else tret tt
          | None => tret tt
          end);
    proc_syscall id 0.
  (** strace.py 200-209 *)
  Definition handle_exit (id : nat) (signum exitcode : option Z) : TM unit :=
    st <~ tget;
    let s := state_of st id in
    _ <~ (match ss_syscall s with
          | Some c => if ss_exit s && negb (s_enter o) then c <~ displaySyscall id c; keep_call id c else tret tt
          | None => tret tt
          end);
    tlog (LLine (T "*** " ++ exit_message ns (pid_of st id) signum exitcode ++ T " ***")).
  (** strace.py 211-213 *)
  Definition prepareProcess (id : nat) : TM unit :=
    _ <~ proc_syscall id 0;
    set_ready id.
  (** strace.py 215-219 *)
  Definition handle_new (id : nat) : TM unit :=
    st <~ tget;
    _ <~ tlog (LNewProcess id (T "*** New process " ++ str_int (pid_of st id) ++ T " ***"));
    _ <~ prepareProcess id;
    q <~ tdbg (get_proc id);
    match pr_parent q with
    | Some parent => proc_syscall parent 0
    | None => tthrow (XErr EAttributeError)
    end.
  (** strace.py 221-224 *)
  Definition handle_execution (id : nat) : TM unit :=
    st <~ tget;
    _ <~ tlog (LLine (T "*** Process " ++ str_int (pid_of st id) ++ T " execution ***"));
    proc_syscall id 0.

  (** strace.py 167-188: one round of the loop; the exit code is passed along *)
  Definition handle_event (fuel : nat) (exitcode : Z) (raised : bool) (ev : event) : TM Z :=
    match raised, ev with
    | true, ProcessExit id s c =>
        _ <~ handle_exit id s c;
        tret (match c with Some code => code | None => exitcode end)
    | true, ProcessSignal signum id =>
        _ <~ tdbg (request K (KDisplay id signum));
        _ <~ proc_syscall id signum;
        tret (signal_to_exitcode signum)
    | true, NewProcessEvent id => _ <~ handle_new id; tret exitcode
    | true, ProcessExecution id => _ <~ handle_execution id; tret exitcode
    | false, ProcessSignal _ id => _ <~ handle_syscall fuel id; tret exitcode
    | false, _ => tthrow (XErr EUndefined)   (* never: waitSyscall() returns a ProcessSignal *)
    end.
  Definition round (fuel : nat) (exitcode : Z) : TM Z :=
    e <~ (fun st => match tdbg (waitSyscall K p fuel None) st with
                    | (st, Ret ev) => (st, Ret (false, ev))
                    | (st, Raise (XEvent ev)) => (st, Ret (true, ev))
                    | (st, Raise (XErr e)) => (st, Raise (XErr e))
                    end);
    _ <~ tsee (fst e) (snd e);
    handle_event fuel exitcode (fst e) (snd e).
  (** strace.py 161-189; "not self.debugger": debugger.py 292-293 *)
  Fixpoint trace_loop (rounds fuel : nat) (exitcode : Z) : TM Z :=
    match rounds with
    | O => tthrow (XErr EDiverges)
    | S rounds =>
        st <~ tget;
        match d_list (t_dbg st) with
        | [] => tret exitcode
        | _ => code <~ round fuel exitcode; trace_loop rounds fuel code
        end
    end.
  (** strace.py 158-189 *)
  Definition syscallTrace (rounds fuel : nat) (id : nat) : TM Z :=
    _ <~ prepareProcess id;
    trace_loop rounds fuel 0.

  (** ptrace/debugger/application.py 51-62 *)
  Definition setupDebugger : TM unit :=
    _ <~ (if s_fork o then
            ttry (tdbg (traceFork p))
                 (fun x => match x with
                           | XErr EDebuggerError =>
                               _ <~ tlog (LLine (T "--fork option is not supported by your OS, sorry!"));
                               tthrow (XErr (ESystemExit 1))
                           | x => tthrow x
                           end)
          else tret tt);
    _ <~ (if s_trace_exec o then tdbg (traceExec p) else tret tt);
    if s_trace_clone o then tdbg (traceClone p) else tret tt.
  (** strace.py 277-281 *)
  Definition createChild : TM Z :=
    pid <~ tres child;
    program0 <~ tres (match s_program o with x :: _ => Ok x | [] => Err EIndexError end);
    _ <~ tlog (LLine (T "execve(" ++ program0 ++ T ", " ++ repr_list repr_ascii (s_program o) ++ T ", [/* 40 vars */]) = " ++ str_int pid));
    tret pid.
  (** ptrace/debugger/application.py 64-79 *)
  Definition createProcess (fuel : nat) : TM (option nat) :=
    r <~ (match s_pid o with
          | Some pid => if pid =? 0 then pid <~ createChild; tret (pid, true)
                        else _ <~ tlog (LLine (T "Attach process " ++ str_int pid)); tret (pid, false)
          | None => pid <~ createChild; tret (pid, true)
          end);
    ttry (id <~ tdbg (addProcess K p fuel (fst r) (snd r) None false); tret (Some id))
         (fun x => match x with
                   | XEvent (ProcessExit _ _ _) => _ <~ tlog (LError x); tret None
                   | XErr e => match ptrace_errno e with
                               | Some _ => _ <~ tlog (LError x); tret None
                               | None => tthrow x
                               end
                   | x => tthrow x
                   end).
  (** strace.py 226-243; [None] is Python's None *)
  Definition runDebugger (rounds fuel : nat) : TM (option Z) :=
    _ <~ setupDebugger;
    process <~ createProcess fuel;
    match process with
    | None => tret None
    | Some id => code <~ syscallTrace rounds fuel id; tret (Some code)
    end.
  (** strace.py 255-275; [run] is self.runDebugger() *)
  Definition main_of (run : TM (option Z)) (fuel : nat) : TM (option Z) :=
    code <~ ttry run
              (fun x => match x with
                        | XEvent (ProcessExit id s c) =>
                            _ <~ handle_exit id s c;
                            tret (Some (match c with Some code => code | None => 0 end))
                        | XEvent _ => _ <~ tlog (LError x); tret (Some 1)
                        | XErr e =>
                            match ptrace_errno e with
                            | Some n => _ <~ tlog (LError x); tret (Some (match n with Some n => n | None => 0 end))
                            | None =>
                                match e with
                                | EKeyboardInterrupt => _ <~ tlog (LLine (T "Interrupted.")); tret (Some 1)
                                | ESystemExit _ | EDiverges => tthrow x   (* not an Exception *)
                                | _ => _ <~ tlog (LError x); tret (Some 1)
                                end
                            end
                        end);
    _ <~ tdbg (quit K p fuel);
    tret code.
  Definition strace_main (rounds fuel : nat) : TM (option Z) := main_of (runDebugger rounds fuel) fuel.
  (** strace.py 245-253: sys.exit() of None or an integer; an exception that leaves main() gives 1 *)
  Definition exit_status (r : out (option Z)) : Z :=
    match r with
    | Ret None => 0
    | Ret (Some code) => code mod 256
    | Raise (XErr (ESystemExit code)) => code mod 256
    | Raise _ => 1
    end.
End Strace.
(** strace.py 256 *)
Definition start (p : platform) : tstate := TState (new_debugger p) [] [] [] [].
