(** * AttrSpec: when the objects of a class always find the attributes that their methods read. *)
From Coq Require Import List Bool PArith.
From Verif Require Import AttrNames AttrModel.
Import ListNotations.
Open Scope attr_scope.

Section Lives.
  Context (flags : attr -> bool) (table : list class) (c : attr).
  (** The constructor can end with the attributes [e] *)
  Inductive created : env -> Prop :=
  | created_init body o e : method flags table c "__init__" = Some body -> run flags table c body [] o -> leave o = Done e -> created e
  | created_plain : method flags table c "__init__" = None -> created [].
  (** The object can have the attributes [e]: after the constructor its methods are called, in any order, and may raise exceptions *)
  Inductive alive : env -> Prop :=
  | alive_new e : created e -> alive e
  | alive_used m body e o e' : alive e -> method flags table c m = Some body -> run flags table c body e o -> attrs_of o = Some e' -> alive e'.
  (** The constructor fails with an exception and leaves an object with the attributes [e] *)
  Definition failed (e : env) : Prop := exists body, method flags table c "__init__" = Some body /\ run flags table c body [] (Raise e).
  Definition init_finds : Prop := forall body a, method flags table c "__init__" = Some body -> ~ run flags table c body [] (Missing a).
  Definition finds (e : env) (m : attr) : Prop := forall body a, method flags table c m = Some body -> ~ run flags table c body e (Missing a).
End Lives.

(** The classes of the library and the tests: their methods may be called in any order *)
Definition objects : list attr :=
  ["PtraceError"; "FunctionArgument"; "FunctionCallOptions"; "FunctionCall"; "ProcError"; "ProcessState"; "Instruction"; "FakeProcess"; "_WString"; "_DecodedInst";
   "register_structure"; "user_regs_struct"; "user_fpregs_struct"; "user_fpxregs_struct"; "BacktraceFrame"; "Backtrace"; "Breakpoint"; "ChildError"; "ChildPtraceError"; "ProcessError"; "MemoryMapping";
   "ProcessEvent"; "ProcessExit"; "ProcessExecution"; "NewProcessEvent"; "ProcessSignal"; "SignalInfo"; "DivisionByZero"; "Abort"; "StackOverflow"; "InvalidMemoryAccess"; "InvalidRead"; "InvalidWrite";
   "InstructionError"; "ChildExit"; "DebuggerError"; "PtraceDebugger"; "PtraceProcess"; "SyscallState"; "in_addr"; "in6_addr"; "SyscallArgument"; "PtraceSyscall";
   "TestsFinder"; "TestResult"; "TestRunner"; "TestStrace"; "TestGdb"].
(** The programs: an object of the class is created, then main() is called *)
Definition programs : list attr := ["SyscallTracer"; "Gdb"; "Tracer"].
(** Attributes and methods that the docstrings of the classes list *)
Definition documented : list (attr * list attr) :=
  [("PtraceError", ["errno"; "pid"]);                                                                                     (* ptrace/error.py 57 *)
   ("FunctionArgument", ["function"; "index"; "options"; "value"; "type"; "text"]);                                       (* ptrace/func_arg.py 7-18 *)
   ("FunctionCall", ["name"; "arguments"; "restype"; "resvalue"; "argument_class"; "format"; "addArgument"; "clearArguments"]); (* ptrace/func_call.py 23-35 *)
   ("ProcessState", ["state"; "program"; "pid"; "ppid"; "pgrp"; "session"; "tty_nr"; "tpgid"; "utime"; "stime"; "starttime"]); (* ptrace/linux_proc.py 57-76 *)
   ("BacktraceFrame", ["ip"; "name"; "arguments"]);                                                                       (* ptrace/debugger/backtrace.py 10-13 *)
   ("MemoryMapping", ["start"; "end"; "permissions"; "offset"; "major_device"; "minor_device"; "inode"; "pathname"; "_process"; "search"]); (* ptrace/debugger/memory_mapping.py 29-44 *)
   ("PtraceDebugger", ["addProcess"; "deleteProcess"; "waitProcessEvent"; "waitSignals"; "waitSyscall"; "traceFork"; "traceExec"; "traceClone"; "enableSysgood"; "quit";
      "dict"; "list"; "options"; "trace_fork"; "trace_exec"; "trace_clone"; "use_sysgood"]);                              (* ptrace/debugger/debugger.py 21-62 *)
   ("PtraceProcess", ["singleStep"; "cont"; "syscall"; "setInstrPointer"; "kill"; "terminate"; "waitEvent"; "waitSignals"; "getreg"; "getInstrPointer"; "getStackPointer"; "getFramePointer"; "getregs";
      "disassemble"; "disassembleOne"; "findStack"; "getsiginfo"; "getBacktrace"; "setreg"; "setregs"; "readWord"; "readBytes"; "readStruct"; "readArray"; "readCString"; "readMappings";
      "writeWord"; "writeBytes"; "dumpCode"; "dumpStack"; "dumpMaps"; "dumpRegs"; "createBreakpoint"; "findBreakpoint"; "removeBreakpoint"; "setoptions";
      "pid"; "debugger"; "breakpoints"; "parent"; "running"; "exited"; "is_attached"; "was_attached"; "is_stopped"; "syscall_state"])]. (* ptrace/debugger/process.py 65-157 *)
(** ptrace/disasm.py 32-42 *)
Definition instruction_documented : list attr := ["address"; "size"; "mnemonic"; "operands"; "hexa"; "text"].
