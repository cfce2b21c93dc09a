(** * ItraceModel: examples/itrace.py, the tracer that prints the address of every instruction. *)
From Coq Require Import ZArith List Ascii String Bool.
From Verif Require Import PyBase Platform SigModel DbgModel SysModel StraceModel.
Import ListNotations.
Open Scope Z_scope.

Section Itrace.
  (** [ip n id]: process.getInstrPointer() after [n] requests *)
  Context (p : platform) (K : dkernel) (ip : nat -> nat -> res Z).
  (** 31-35: [n] rounds are left.  print() is a line of the log. *)
  Fixpoint pass_syscalls (n fuel : nat) (i : Z) (id : nat) : TM unit :=
    match n with
    | O => tret tt
    | S n =>
        _ <~ tlog (LLine (str_int i));
        _ <~ tdbg (syscall K p id 0);
        _ <~ tdbg (waitSyscall K p fuel None);
        pass_syscalls n fuel (i + 1) id
    end.
  (** 31: "i < syscall_limit" comes first, and an integer is not comparable with None (Python 3) *)
  Definition pass (limit : option Z) (fuel : nat) (id : nat) : TM unit :=
    match limit with
    | None => tthrow (XErr ETypeError)
    | Some limit => pass_syscalls (Z.to_nat limit) fuel 0 id
    end.
  (** 39 *)
  Definition step_line (i pid eip : Z) : text := str_int i ++ T " " ++ str_int pid ++ T " [" ++ fmt_int0 16 8 eip ++ T "]".
  (** 43-49: the line printed before the end, if this is the end *)
  Definition last_line (event : option event) : option text :=
    match event with
    | Some (ProcessExit _ _ _) => Some (T "process exit")
    | Some (ProcessSignal signum _) => if Z.land signum (Z.lnot 128) =? SIGTRAP then None else Some (T "died with signal " ++ str_int signum)
    | _ => None
    end.
  (** 36-49; [while self.debugger]: there are processes *)
  Fixpoint step_loop (rounds fuel : nat) (i : Z) (id : nat) : TM unit :=
    match rounds with
    | O => tthrow (XErr EDiverges)
    | S rounds =>
        st <~ tget;
        match d_list (t_dbg st) with
        | [] => tret tt
        | _ =>
            eip <~ tres (ip (List.length (d_calls (t_dbg st))) id);
            _ <~ tlog (LLine (step_line i (pid_of st id) eip));
            _ <~ tdbg (singleStep K id);
            event <~ tdbg (waitProcessEvent K p fuel None true);
            match last_line event with
            | Some line => tlog (LLine line)
            | None => step_loop rounds fuel (i + 1) id
            end
        end
    end.
  (** 28-49 *)
  Definition itrace (limit : option Z) (rounds fuel : nat) (id : nat) : TM unit :=
    _ <~ pass limit fuel id;
    step_loop rounds fuel 0 id.
End Itrace.

(** Tracer inherits everything but syscallTrace and one option from strace.SyscallTracer. *)
Section Main.
  Context (p : platform) (ns : namespace) (repr_fs : list byte -> text)
          (K : dkernel) (stops : nat -> nat -> stop) (o : soptions) (child : res Z) (ip : nat -> nat -> res Z) (limit : option Z).
  (** strace.py 226-243 with examples/itrace.py 28-49; syscallTrace returns None *)
  Definition itrace_debugger (rounds fuel : nat) : TM (option Z) :=
    _ <~ setupDebugger p o;
    process <~ createProcess p K o child fuel;
    match process with
    | None => tret None
    | Some id => _ <~ itrace p K ip limit rounds fuel id; tret None
    end.
  (** strace.py 255-275 *)
  Definition itrace_main (rounds fuel : nat) : TM (option Z) :=
    main_of p ns repr_fs K stops o (itrace_debugger rounds fuel) fuel.
End Main.
