(** * SigModel: signal names and the texts of process events
    (ptrace/signames.py, ptrace/debugger/process_event.py, ptrace/process_tools.py 106-124). *)
From Coq Require Import ZArith List Ascii String Bool.
From Verif Require Import PyBase DbgModel.
Import ListNotations.
Open Scope Z_scope.

(** ptrace/signames.py 9 *)
Definition PREFERRED_NAMES : list text := [T "SIGABRT"; T "SIGHUP"; T "SIGCHLD"; T "SIGPOLL"].

(** The namespace of the signal module: the pairs (name, value) in the order of dir(signal), which is sorted.  Attributes
    that are not numbers are left out; none of them starts with "SIG". *)
Definition namespace : Type := list (text * Z).

(** ptrace/signames.py 19-28: one entry of the namespace *)
Definition collect (allnames : list (Z * list text)) (entry : text * Z) : list (Z * list text) :=
  let '(name, signum) := entry in
  if negb (starts_with (T "SIG") name) then allnames
  else match dget Z.eqb signum allnames with
       | Some names => dset Z.eqb signum (names ++ [name]) allnames
       | None => dset Z.eqb signum [name] allnames
       end.
(** ptrace/signames.py 34-38 *)
Fixpoint find_preferred (preferred : list text) (names : list text) : option text :=
  match preferred with
  | [] => None
  | x :: preferred => if existsb (text_eqb x) names then Some x else find_preferred preferred names
  end.
(** ptrace/signames.py 29-41: one signal number *)
Definition choose (signames : list (Z * text)) (entry : Z * list text) : list (Z * text) :=
  let '(signum, names) := entry in
  if signum =? 0 then signames
  else
    match find_preferred PREFERRED_NAMES names with
    | Some name => dset Z.eqb signum name signames
    | None => match names with
              | name :: _ => dset Z.eqb signum name signames
              | [] => signames   (* never: lists are created with one name *)
              end
    end.
(** ptrace/signames.py 12-42 *)
Definition getSignalNames (ns : namespace) : list (Z * text) :=
  fold_left choose (fold_left collect ns []) [].
(** ptrace/signames.py 47-60 *)
Definition signalName (ns : namespace) (signum : Z) : text :=
  match dget Z.eqb signum (getSignalNames ns) with
  | Some name => name
  | None => T "signal<" ++ str_int signum ++ T ">"
  end.

(** ptrace/debugger/process_event.py 26-38 *)
Definition exit_message (ns : namespace) (pid : Z) (signum exitcode : option Z) : text :=
  let abnormal :=
    match exitcode with
    | Some code =>
        if code =? 0 then T "Process " ++ str_int pid ++ T " exited normally"
        else T "Process " ++ str_int pid ++ T " exited with code " ++ str_int code
    | None => T "Process " ++ str_int pid ++ T " terminated abnormally"
    end in
  match signum with
  | Some s => if s =? 0 then abnormal
              else T "Process " ++ str_int pid ++ T " killed by signal " ++ signalName ns s
  | None => abnormal
  end.
(** ptrace/debugger/process_event.py 49-51, 60-61; ptrace/debugger/ptrace_signal.py (message of a ProcessSignal before
    its reason is known: "Signal <name>") *)
Definition event_message (ns : namespace) (pid_of : nat -> Z) (ev : event) : text :=
  match ev with
  | ProcessExit id s c => exit_message ns (pid_of id) s c
  | ProcessExecution id => T "Process " ++ str_int (pid_of id) ++ T " execution"
  | NewProcessEvent id => T "New process " ++ str_int (pid_of id)
  | ProcessSignal s _ => T "Signal " ++ signalName ns s
  end.

(** ptrace/process_tools.py 106-124 *)
Definition formatProcessStatus (ns : namespace) (status : Z) (title : text) : text :=
  let text :=
    if WIFSTOPPED status then title ++ T " stopped by signal " ++ signalName ns (WSTOPSIG status)
    else if WIFSIGNALED status then title ++ T " killed by signal " ++ signalName ns (WTERMSIG status)
    else
      let exitcode := WEXITSTATUS status in
      if negb (exitcode =? 0) then title ++ T " exited with code " ++ str_int exitcode
      else title ++ T " exited normally" in
  if WCOREDUMP status then text ++ T " (core dumped)" else text.

(** The names of the signal module of CPython on Linux/x86. *)
Definition linux_signals : namespace :=
  [(T "SIGABRT", 6); (T "SIGALRM", 14); (T "SIGBUS", 7); (T "SIGCHLD", 17); (T "SIGCLD", 17); (T "SIGCONT", 18);
   (T "SIGFPE", 8); (T "SIGHUP", 1); (T "SIGILL", 4); (T "SIGINT", 2); (T "SIGIO", 29); (T "SIGIOT", 6); (T "SIGKILL", 9);
   (T "SIGPIPE", 13); (T "SIGPOLL", 29); (T "SIGPROF", 27); (T "SIGPWR", 30); (T "SIGQUIT", 3); (T "SIGRTMAX", 64);
   (T "SIGRTMIN", 34); (T "SIGSEGV", 11); (T "SIGSTKFLT", 16); (T "SIGSTOP", 19); (T "SIGSYS", 31); (T "SIGTERM", 15);
   (T "SIGTRAP", 5); (T "SIGTSTP", 20); (T "SIGTTIN", 21); (T "SIGTTOU", 22); (T "SIGURG", 23); (T "SIGUSR1", 10);
   (T "SIGUSR2", 12); (T "SIGVTALRM", 26); (T "SIGWINCH", 28); (T "SIGXCPU", 24); (T "SIGXFSZ", 25); (T "SIG_BLOCK", 0);
   (T "SIG_DFL", 0); (T "SIG_IGN", 1); (T "SIG_SETMASK", 2); (T "SIG_UNBLOCK", 1)].
