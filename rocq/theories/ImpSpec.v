(** * ImpSpec: what importing the modules should give. *)
From Coq Require Import List Bool PArith.
From Verif Require Import Platform ImpNames ImpModel.
Import ListNotations.
Open Scope name_scope.

(** The platforms for which the project has a table of system calls (Linux) or registers (BSD) *)
Definition supported (p : platform) : bool :=
  match p_os p, p_cpu p with
  | _, OtherCPU => false
  | Linux, ARM32 => false
  | _, _ => true
  end.
(** Every import succeeds, except that of the binding of a library that is not there. *)
Definition expected (h : host) (m : name) : ires unit :=
  if Pos.eqb m "ptrace.pydistorm" && negb (h_libdistorm h) then IErr OSError_ else IOk tt.

(** The flags of a module and the host *)
Definition flags (h : host) : list (name * name * bool) :=
  let p := h_platform h in
  [("ptrace.os_tools", "RUNNING_LINUX", running_linux p);
   ("ptrace.os_tools", "RUNNING_BSD", running_bsd p);
   ("ptrace.os_tools", "RUNNING_OPENBSD", running_openbsd p);
   ("ptrace.os_tools", "HAS_PROC", has_proc p);
   ("ptrace.cpu_info", "CPU_64BITS", p_64bits p);
   ("ptrace.cpu_info", "CPU_INTEL", is_intel (p_cpu p));
   ("ptrace.cpu_info", "CPU_POWERPC", is_powerpc (p_cpu p));
   ("ptrace.cpu_info", "CPU_RISCV", is_riscv (p_cpu p));
   ("ptrace.os_tools", "RUNNING_FREEBSD", match p_os p with FreeBSD => true | _ => false end);
   ("ptrace.os_tools", "RUNNING_MACOSX", match p_os p with MacOSX => true | _ => false end);
   ("ptrace.cpu_info", "CPU_I386", match p_cpu p with I386 => true | _ => false end);
   ("ptrace.cpu_info", "CPU_X86_64", match p_cpu p with X86_64 => true | _ => false end);
   ("ptrace.cpu_info", "CPU_PPC32", match p_cpu p with PPC32 => true | _ => false end);
   ("ptrace.cpu_info", "CPU_PPC64", match p_cpu p with PPC64 => true | _ => false end);
   ("ptrace.cpu_info", "CPU_ARM32", match p_cpu p with ARM32 => true | _ => false end);
   ("ptrace.cpu_info", "CPU_AARCH64", match p_cpu p with AARCH64 => true | _ => false end);
   ("ptrace.cpu_info", "CPU_RISCV32", match p_cpu p with RISCV32 => true | _ => false end);
   ("ptrace.cpu_info", "CPU_RISCV64", match p_cpu p with RISCV64 => true | _ => false end);
   ("ptrace.debugger.signal_reason", "regex", is_intel (p_cpu p));      (* the expression for the instructions of Intel CPUs *)
   ("ptrace.binding", "HAS_PTRACE_SINGLESTEP", true);
   ("ptrace.binding.func", "HAS_CPTRACE", h_cptrace h);
   ("ptrace.binding", "HAS_PTRACE_EVENTS", has_ptrace_events p);
   ("ptrace.binding", "HAS_PTRACE_SIGINFO", has_ptrace_siginfo p);
   ("ptrace.binding", "HAS_PTRACE_IO", has_ptrace_io p);
   ("ptrace.binding", "HAS_PTRACE_GETREGS", has_ptrace_getregs p);
   ("ptrace.binding", "HAS_PTRACE_GETREGSET", has_ptrace_getregset p)].

(** With the disassembler: an Intel CPU, and distorm3 or the library of pydistorm *)
Definition with_disassembler (h : host) : bool := is_intel (p_cpu (h_platform h)) && (h_distorm3 h || h_libdistorm h).
(** Names that are in a module, or only on some hosts *)
Definition exports (h : host) : list (name * list name * bool) :=
  let p := h_platform h in
  [("ptrace", ["PtraceError"; "signalName"; "SIGNAMES"], true);
   ("ptrace.debugger", ["Breakpoint"; "ProcessEvent"; "ProcessExit"; "NewProcessEvent"; "ProcessExecution"; "ProcessSignal"; "ProcessError"; "ChildError";
                        "PtraceProcess"; "PtraceDebugger"; "DebuggerError"; "Application"], true);
   ("ptrace.binding", ["ptrace_attach"; "ptrace_traceme"; "ptrace_detach"; "ptrace_kill"; "ptrace_cont"; "ptrace_syscall"; "ptrace_setregs"; "ptrace_peektext";
                       "ptrace_poketext"; "ptrace_peekuser"; "ptrace_registers_t"; "REGISTER_NAMES"], true);
   ("ptrace.binding", ["WPTRACEEVENT"; "ptrace_setoptions"; "ptrace_geteventmsg"], has_ptrace_events p);
   ("ptrace.binding", ["ptrace_getsiginfo"], has_ptrace_siginfo p);
   ("ptrace.binding", ["ptrace_io"; "ptrace_io_desc"], has_ptrace_io p);
   ("ptrace.binding", ["ptrace_getregs"], has_ptrace_getregs p || has_ptrace_getregset p);
   ("ptrace.syscall", ["PtraceSyscall"; "SYSCALL_NAMES"; "SYSCALL_PROTOTYPES"], true);
   ("ptrace.disasm", ["Instruction"; "disassemble"; "disassembleOne"], with_disassembler h);
   ("gdb", ["Gdb"], true)].
