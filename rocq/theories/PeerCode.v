(** * PeerCode: where the code reads attributes of other objects than self, and the class of the object there.
    The class is the one that the code gives to the variable: the objects come from constructors, from readMappings(), waitSignals(), an except clause, ...
    Objects of the Python library (files, matches, lists, optparse, unittest) and ctypes structures without methods are left out. *)
From Coq Require Import List String.
From Verif Require Import PyBase AttrNames PeerModel.
Import ListNotations.
Open Scope attr_scope.

(** ptrace/debugger/application.py *)
Definition peers_ptrace_debugger_application : list (attr * attr) :=
  [(* 53 self.debugger *) ("PtraceDebugger", "traceFork"); (* 58 self.debugger *) ("PtraceDebugger", "traceExec"); (* 60 self.debugger *) ("PtraceDebugger", "traceClone"); (* 71 self.debugger *) ("PtraceDebugger", "addProcess");
   (* 74 err *) ("PtraceError", "errno")].
(** ptrace/debugger/backtrace.py *)
Definition peers_ptrace_debugger_backtrace : list (attr * attr) :=
  [(* 56 process *) ("PtraceProcess", "getInstrPointer"); (* 57 process *) ("PtraceProcess", "getFramePointer"); (* 67 process *) ("PtraceProcess", "readWord"); (* 80 backtrace *) ("Backtrace", "append");
   (* 87 process *) ("PtraceProcess", "readWord"); (* 110 process *) ("PtraceProcess", "readWord"); (* 111 frame *) ("BacktraceFrame", "arguments")].
(** ptrace/debugger/breakpoint.py *)
Definition peers_ptrace_debugger_breakpoint : list (attr * attr) :=
  [(* 28 process *) ("PtraceProcess", "readBytes"); (* 36 process *) ("PtraceProcess", "writeBytes"); (* 51 process *) ("PtraceProcess", "running"); (* 52 process *) ("PtraceProcess", "writeBytes");
   (* 54 process *) ("PtraceProcess", "setInstrPointer"); (* 55 process *) ("PtraceProcess", "removeBreakpoint")].
(** ptrace/debugger/debugger.py *)
Definition peers_ptrace_debugger_debugger : list (attr * attr) :=
  [(* 88 process *) ("PtraceProcess", "waitSignals"); (* 95 event *) ("ProcessSignal", "display"); (* 98 process *) ("PtraceProcess", "detach"); (* 101 process *) ("PtraceProcess", "setoptions");
   (* 113 process *) ("PtraceProcess", "terminate"); (* 114 process *) ("PtraceProcess", "detach"); (* 133 process *) ("PtraceProcess", "is_thread"); (* 157 process *) ("PtraceProcess", "processTerminated");
   (* 166 process *) ("PtraceProcess", "processStatus"); (* 204 event *) ("ProcessEvent", "__class__"); (* 206 event *) ("ProcessSignal", "signum"); (* 221 process *) ("PtraceProcess", "pid");
   (* 235 process *) ("PtraceProcess", "pid")].
(** ptrace/debugger/memory_mapping.py *)
Definition peers_ptrace_debugger_memory_mapping : list (attr * attr) :=
  [(* 87 process *) ("PtraceProcess", "readBytes"); (* 116 process *) ("PtraceProcess", "pid")].
(** ptrace/debugger/parse_expr.py *)
Definition peers_ptrace_debugger_parse_expr : list (attr * attr) :=
  [(* 55 process *) ("PtraceProcess", "getreg")].
(** ptrace/debugger/process.py *)
Definition peers_ptrace_debugger_process : list (attr * attr) :=
  [(* 183 stat *) ("ProcessState", "state"); (* 235 self.breakpoints[address] *) ("Breakpoint", "old_bytes"); (* 241 instr *) ("Instruction", "address"); (* 241 instr *) ("Instruction", "hexa");
   (* 241 instr *) ("Instruction", "text"); (* 242 instr *) ("Instruction", "address"); (* 247 instr *) ("Instruction", "size"); (* 253 instr *) ("Instruction", "address");
   (* 253 instr *) ("Instruction", "hexa"); (* 253 instr *) ("Instruction", "text"); (* 254 instr *) ("Instruction", "address"); (* 287 map *) ("MemoryMapping", "pathname");
   (* 298 self.debugger *) ("PtraceDebugger", "deleteProcess"); (* 323 event *) ("PtraceError", "errno"); (* 338 event *) ("ProcessEvent", "__class__"); (* 349 event *) ("ProcessSignal", "signum");
   (* 407 self.debugger *) ("PtraceDebugger", "addProcess"); (* 733 self.debugger *) ("PtraceDebugger", "waitProcessEvent"); (* 736 self.debugger *) ("PtraceDebugger", "waitSignals"); (* 739 self.debugger *) ("PtraceDebugger", "waitSyscall");
   (* 743 bp *) ("Breakpoint", "address"); (* 743 bp *) ("Breakpoint", "size"); (* 759 breakpoint *) ("Breakpoint", "address")].
(** ptrace/debugger/process_error.py *)
Definition peers_ptrace_debugger_process_error : list (attr * attr) :=
  [(* 7 process *) ("PtraceProcess", "pid")].
(** ptrace/debugger/process_event.py *)
Definition peers_ptrace_debugger_process_event : list (attr * attr) :=
  [(* 26 process *) ("PtraceProcess", "pid"); (* 50 process *) ("PtraceProcess", "pid"); (* 61 process *) ("PtraceProcess", "pid")].
(** ptrace/debugger/ptrace_signal.py *)
Definition peers_ptrace_debugger_ptrace_signal : list (attr * attr) :=
  [(* 81 self.process *) ("PtraceProcess", "disassembleOne"); (* 86 instr *) ("Instruction", "text"); (* 135 process *) ("PtraceProcess", "getreg"); (* 139 process *) ("PtraceProcess", "getreg");
   (* 159 self.process *) ("PtraceProcess", "getsiginfo"); (* 179 self.process *) ("PtraceProcess", "getInstrPointer"); (* 187 self.process *) ("PtraceProcess", "findStack"); (* 189 self.process *) ("PtraceProcess", "getStackPointer");
   (* 190 stack *) ("MemoryMapping", "end"); (* 190 stack *) ("MemoryMapping", "start"); (* 209 instr *) ("Instruction", "text"); (* 227 self.process *) ("PtraceProcess", "pid");
   (* 230 self.reason *) ("SignalInfo", "display")].
(** ptrace/debugger/signal_reason.py *)
Definition peers_ptrace_debugger_signal_reason : list (attr * attr) :=
  [(* 24 instr *) ("Instruction", "text"); (* 32 process *) ("PtraceProcess", "getreg"); (* 47 process *) ("PtraceProcess", "readMappings"); (* 56 map *) ("MemoryMapping", "end");
   (* 56 map *) ("MemoryMapping", "start"); (* 57 map *) ("MemoryMapping", "end"); (* 57 map *) ("MemoryMapping", "start")].
(** ptrace/debugger/syscall_state.py *)
Definition peers_ptrace_debugger_syscall_state : list (attr * attr) :=
  [(* 21 self.process *) ("PtraceProcess", "getregs"); (* 23 self.syscall *) ("PtraceSyscall", "name"); (* 26 self.syscall *) ("PtraceSyscall", "enter"); (* 34 self.syscall *) ("PtraceSyscall", "exit");
   (* 37 self.process *) ("PtraceProcess", "debugger"); (* 37 self.process.debugger *) ("PtraceDebugger", "trace_exec"); (* 39 self.process *) ("PtraceProcess", "syscall"); (* 40 self.process *) ("PtraceProcess", "waitSignals")].
(** ptrace/disasm.py *)
Definition peers_ptrace_disasm : list (attr * attr) :=
  [(* 48 instr *) ("_DecodedInst", "offset"); (* 49 instr *) ("_DecodedInst", "size"); (* 50 instr *) ("_DecodedInst", "instructionHex"); (* 51 instr *) ("_DecodedInst", "mnemonic");
   (* 51 instr *) ("_DecodedInst", "operands")].
(** ptrace/func_arg.py *)
Definition peers_ptrace_func_arg : list (attr * attr) :=
  [(* 50 options *) ("FunctionCallOptions", "write_argname"); (* 51 options *) ("FunctionCallOptions", "write_types"); (* 55 options *) ("FunctionCallOptions", "write_types"); (* 64 self.options *) ("FunctionCallOptions", "write_address");
   (* 73 self.function.process *) ("PtraceProcess", "readStruct"); (* 95 self.function.process *) ("PtraceProcess", "readArray")].
(** ptrace/func_call.py *)
Definition peers_ptrace_func_call : list (attr * attr) :=
  [(* 56 arg *) ("FunctionArgument", "name"); (* 64 arg *) ("FunctionArgument", "format"); (* 71 self.options *) ("FunctionCallOptions", "write_types")].
(** ptrace/linux_proc.py *)
Definition peers_ptrace_linux_proc : list (attr * attr) :=
  [(* 176 stat *) ("ProcessState", "program")].
(** ptrace/process_tools.py *)
Definition peers_ptrace_process_tools : list (attr * attr) :=
  [(* 38 stat *) ("ProcessState", "ppid"); (* 41 stat *) ("ProcessState", "state"); (* 43 stat *) ("ProcessState", "STATE_NAMES")].
(** ptrace/pydistorm.py *)
Definition peers_ptrace_pydistorm : list (attr * attr) :=
  [(* 121 instr *) ("_DecodedInst", "size")].
(** ptrace/syscall/posix_arg.py *)
Definition peers_ptrace_syscall_posix_arg : list (attr * attr) :=
  [(* 16 argument *) ("SyscallArgument", "value"); (* 28 argument *) ("SyscallArgument", "value"); (* 55 argument *) ("SyscallArgument", "value"); (* 64 argument *) ("SyscallArgument", "value");
   (* 82 argument *) ("SyscallArgument", "value"); (* 89 argument *) ("SyscallArgument", "value"); (* 117 argument *) ("SyscallArgument", "value"); (* 133 argument *) ("SyscallArgument", "value")].
(** ptrace/syscall/ptrace_syscall.py *)
Definition peers_ptrace_syscall_ptrace_syscall : list (attr * attr) :=
  [(* 64 self.process *) ("PtraceProcess", "getregs"); (* 69 self.process *) ("PtraceProcess", "getregs"); (* 73 self.options *) ("FunctionCallOptions", "replace_socketcall"); (* 74 self[1] *) ("FunctionArgument", "value");
   (* 80 argument *) ("SyscallArgument", "format"); (* 82 self.options *) ("FunctionCallOptions", "instr_pointer"); (* 102 self.process *) ("PtraceProcess", "getStackPointer"); (* 103 self.process *) ("PtraceProcess", "readWord");
   (* 133 argument *) ("SyscallArgument", "type"); (* 137 self.process *) ("PtraceProcess", "getreg")].
(** ptrace/syscall/socketcall.py *)
Definition peers_ptrace_syscall_socketcall : list (attr * attr) :=
  [(* 17 argument *) ("SyscallArgument", "function"); (* 18 function['optlen'] *) ("FunctionArgument", "value"); (* 20 argument *) ("SyscallArgument", "value"); (* 21 function.process *) ("PtraceProcess", "readStruct");
   (* 22 argument *) ("SyscallArgument", "formatPointer"); (* 28 argument *) ("SyscallArgument", "value"); (* 29 argument *) ("SyscallArgument", "function"); (* 29 argument.function.process *) ("PtraceProcess", "readStruct");
   (* 32 argument *) ("SyscallArgument", "readStruct"); (* 34 argument *) ("SyscallArgument", "readStruct"); (* 36 argument *) ("SyscallArgument", "readStruct"); (* 39 argument *) ("SyscallArgument", "readStruct");
   (* 41 argument *) ("SyscallArgument", "formatPointer"); (* 51 socketcall *) ("FunctionArgument", "getText"); (* 56 process *) ("PtraceProcess", "readWord")].
(** ptrace/syscall/socketcall_constants.py *)
Definition peers_ptrace_syscall_socketcall_constants : list (attr * attr) :=
  [(* 63 argument *) ("SyscallArgument", "value")].
(** ptrace/syscall/syscall_argument.py *)
Definition peers_ptrace_syscall_syscall_argument : list (attr * attr) :=
  [(* 111 self.function[0] *) ("FunctionArgument", "value"); (* 113 self.function[2] *) ("FunctionArgument", "value"); (* 171 self.function.process *) ("PtraceProcess", "readStruct"); (* 178 self.function.arguments[0] *) ("FunctionArgument", "value");
   (* 184 self.function['sigsetsize'] *) ("FunctionArgument", "value"); (* 194 self.function.process *) ("PtraceProcess", "readBytes"); (* 201 self.options *) ("FunctionCallOptions", "string_max_length"); (* 202 self.function.process *) ("PtraceProcess", "readCString");
   (* 214 self.options *) ("FunctionCallOptions", "string_max_length"); (* 217 self.function.process *) ("PtraceProcess", "readBytes"); (* 230 self.options *) ("FunctionCallOptions", "max_array_count"); (* 233 self.function.process *) ("PtraceProcess", "readWord")].
(** gdb.py *)
Definition peers_gdb : list (attr * attr) :=
  [(* 121 pm *) ("MemoryMapping", "search"); (* 173 process *) ("PtraceProcess", "cont"); (* 179 process *) ("PtraceProcess", "cont"); (* 183 process *) ("PtraceProcess", "syscall_state");
   (* 183 process.syscall_state *) ("SyscallState", "clear"); (* 190 self.debugger *) ("PtraceDebugger", "waitSignals"); (* 191 signal *) ("ProcessSignal", "process"); (* 194 signal *) ("ProcessSignal", "signum");
   (* 195 self.process *) ("PtraceProcess", "getInstrPointer"); (* 199 self.process *) ("PtraceProcess", "findBreakpoint"); (* 202 breakpoint *) ("Breakpoint", "desinstall"); (* 209 self.process *) ("PtraceProcess", "getreg");
   (* 251 self.process *) ("PtraceProcess", "readWord"); (* 284 procmap *) ("MemoryMapping", "search"); (* 294 process *) ("PtraceProcess", "pid"); (* 309 self.process *) ("PtraceProcess", "dumpRegs");
   (* 311 self.process *) ("PtraceProcess", "dumpStack"); (* 321 self.process *) ("PtraceProcess", "dumpMaps"); (* 403 self.process *) ("PtraceProcess", "readMappings"); (* 463 self.process *) ("PtraceProcess", "readBytes");
   (* 496 self.process *) ("PtraceProcess", "getBacktrace"); (* 499 trace *) ("Backtrace", "truncated"); (* 514 self.process *) ("PtraceProcess", "dumpCode"); (* 518 self.process *) ("PtraceProcess", "pid");
   (* 541 self.process *) ("PtraceProcess", "setreg"); (* 550 self.process *) ("PtraceProcess", "disassembleOne"); (* 552 instr *) ("Instruction", "address"); (* 552 instr *) ("Instruction", "text");
   (* 554 self.process *) ("PtraceProcess", "dumpCode"); (* 563 self.debugger *) ("PtraceDebugger", "addProcess"); (* 571 self.process *) ("PtraceProcess", "getInstrPointer"); (* 580 self.process *) ("PtraceProcess", "createBreakpoint");
   (* 583 self.process *) ("PtraceProcess", "cont"); (* 586 self.process *) ("PtraceProcess", "singleStep"); (* 591 self.process *) ("PtraceProcess", "waitSignals"); (* 593 breakpoint *) ("Breakpoint", "desinstall");
   (* 596 breakpoint *) ("Breakpoint", "desinstall"); (* 601 event *) ("ProcessEvent", "process"); (* 607 self.process *) ("PtraceProcess", "syscall"); (* 608 self.process *) ("PtraceProcess", "waitSyscall");
   (* 611 self.process *) ("PtraceProcess", "syscall_state"); (* 612 state *) ("SyscallState", "event"); (* 616 syscall *) ("PtraceSyscall", "result"); (* 617 syscall *) ("PtraceSyscall", "format");
   (* 617 syscall *) ("PtraceSyscall", "result_text"); (* 619 syscall *) ("PtraceSyscall", "process"); (* 619 syscall.process *) ("PtraceProcess", "pid"); (* 622 syscall *) ("PtraceSyscall", "format");
   (* 624 syscall *) ("PtraceSyscall", "process"); (* 624 syscall.process *) ("PtraceProcess", "pid"); (* 641 self.debugger *) ("PtraceDebugger", "list"); (* 676 process *) ("PtraceProcess", "breakpoints");
   (* 693 self.process *) ("PtraceProcess", "disassembleOne"); (* 694 instr *) ("Instruction", "size"); (* 709 self.process *) ("PtraceProcess", "createBreakpoint"); (* 722 self.process *) ("PtraceProcess", "findBreakpoint");
   (* 725 breakpoint *) ("Breakpoint", "desinstall"); (* 739 event *) ("ProcessSignal", "display"); (* 740 event *) ("ProcessEvent", "process"); (* 741 event *) ("ProcessSignal", "signum");
   (* 742 event *) ("ProcessSignal", "name"); (* 746 event *) ("ProcessEvent", "process"); (* 757 process *) ("PtraceProcess", "is_stopped"); (* 760 process *) ("PtraceProcess", "isTraced");
   (* 765 process *) ("PtraceProcess", "kill"); (* 770 process *) ("PtraceProcess", "waitSignals"); (* 772 event *) ("ProcessSignal", "display"); (* 781 process *) ("PtraceProcess", "processTerminated");
   (* 845 err *) ("PtraceError", "errno"); (* 846 err *) ("PtraceError", "pid"); (* 881 self.debugger *) ("PtraceDebugger", "quit")].
(** strace.py *)
Definition peers_strace : list (attr * attr) :=
  [(* 138 syscall *) ("PtraceSyscall", "name"); (* 146 syscall *) ("PtraceSyscall", "format"); (* 147 syscall *) ("PtraceSyscall", "result"); (* 148 syscall *) ("PtraceSyscall", "result_text");
   (* 151 syscall *) ("PtraceSyscall", "process"); (* 151 syscall.process *) ("PtraceProcess", "pid"); (* 153 syscall *) ("PtraceSyscall", "instr_pointer"); (* 169 self.debugger *) ("PtraceDebugger", "waitSyscall");
   (* 172 event *) ("ProcessExit", "exitcode"); (* 173 event *) ("ProcessExit", "exitcode"); (* 176 event *) ("ProcessSignal", "display"); (* 177 event *) ("ProcessEvent", "process");
   (* 177 event *) ("ProcessSignal", "signum"); (* 177 event.process *) ("PtraceProcess", "syscall"); (* 178 event *) ("ProcessSignal", "signum"); (* 188 event *) ("ProcessEvent", "process");
   (* 192 process *) ("PtraceProcess", "syscall_state"); (* 193 state *) ("SyscallState", "event"); (* 194 syscall *) ("PtraceSyscall", "result"); (* 198 process *) ("PtraceProcess", "syscall");
   (* 202 event *) ("ProcessEvent", "process"); (* 202 event.process *) ("PtraceProcess", "syscall_state"); (* 203 state *) ("SyscallState", "next_event"); (* 205 state *) ("SyscallState", "syscall");
   (* 206 state *) ("SyscallState", "syscall"); (* 212 process *) ("PtraceProcess", "syscall"); (* 213 process *) ("PtraceProcess", "syscall_state"); (* 216 event *) ("ProcessEvent", "process");
   (* 217 process *) ("PtraceProcess", "pid"); (* 219 process *) ("PtraceProcess", "parent"); (* 219 process.parent *) ("PtraceProcess", "syscall"); (* 222 event *) ("ProcessEvent", "process");
   (* 223 process *) ("PtraceProcess", "pid"); (* 224 process *) ("PtraceProcess", "syscall"); (* 262 event *) ("ProcessExit", "exitcode"); (* 263 event *) ("ProcessExit", "exitcode");
   (* 266 err *) ("PtraceError", "errno"); (* 267 err *) ("PtraceError", "errno"); (* 274 self.debugger *) ("PtraceDebugger", "quit")].
(** runtests.py *)
Definition peers_runtests : list (attr * attr) :=
  [(* 189 result *) ("TestResult", "leaks"); (* 190 result *) ("TestResult", "leaks"); (* 191 result *) ("TestResult", "leaks"); (* 258 finder *) ("TestsFinder", "load_tests");
   (* 264 finder *) ("TestsFinder", "load_tests")].
(** examples/itrace.py *)
Definition peers_examples_itrace : list (attr * attr) :=
  [(* 34 process *) ("PtraceProcess", "syscall"); (* 35 self.debugger *) ("PtraceDebugger", "waitSyscall"); (* 38 process *) ("PtraceProcess", "getInstrPointer"); (* 39 process *) ("PtraceProcess", "pid");
   (* 41 process *) ("PtraceProcess", "singleStep"); (* 42 self.debugger *) ("PtraceDebugger", "waitProcessEvent"); (* 47 event *) ("ProcessSignal", "signum"); (* 48 event *) ("ProcessSignal", "signum")].
(** examples/simple_dbg.py *)
Definition peers_examples_simple_dbg : list (attr * attr) :=
  [(* 10 process *) ("PtraceProcess", "dumpRegs"); (* 12 process *) ("PtraceProcess", "cont"); (* 14 process *) ("PtraceProcess", "waitEvent"); (* 53 dbg *) ("PtraceDebugger", "addProcess");
   (* 57 dbg *) ("PtraceDebugger", "quit")].
Definition peers : list (attr * attr) :=
  peers_ptrace_debugger_application ++ peers_ptrace_debugger_backtrace ++ peers_ptrace_debugger_breakpoint ++ peers_ptrace_debugger_debugger ++ peers_ptrace_debugger_memory_mapping ++ peers_ptrace_debugger_parse_expr ++ peers_ptrace_debugger_process ++ peers_ptrace_debugger_process_error ++ peers_ptrace_debugger_process_event ++ peers_ptrace_debugger_ptrace_signal ++ peers_ptrace_debugger_signal_reason ++ peers_ptrace_debugger_syscall_state ++ peers_ptrace_disasm ++ peers_ptrace_func_arg ++ peers_ptrace_func_call ++ peers_ptrace_linux_proc ++ peers_ptrace_process_tools ++ peers_ptrace_pydistorm ++ peers_ptrace_syscall_posix_arg ++ peers_ptrace_syscall_ptrace_syscall ++ peers_ptrace_syscall_socketcall ++ peers_ptrace_syscall_socketcall_constants ++ peers_ptrace_syscall_syscall_argument ++ peers_gdb ++ peers_strace ++ peers_runtests ++ peers_examples_itrace ++ peers_examples_simple_dbg.
(** The function of an argument: a PtraceSyscall, or a FunctionCall that setupSocketCall() (ptrace/syscall/socketcall.py 44-58) prepares, which assigns its process *)
Definition function_reads : list attr :=
  [(* ptrace/func_arg.py 43 self.function *) "name"; (* ptrace/func_arg.py 73 self.function *) "process"; (* ptrace/func_arg.py 95 self.function *) "process";
   (* ptrace/func_arg.py 105 self.function *) "name"; (* ptrace/syscall/socketcall.py 21 function *) "process"; (* ptrace/syscall/socketcall.py 29 argument.function *) "process";
   (* ptrace/syscall/socketcall.py 46 function *) "clearArguments"; (* ptrace/syscall/socketcall.py 54 function *) "name"; (* ptrace/syscall/socketcall.py 57 function *) "addArgument";
   (* ptrace/syscall/syscall_argument.py 82 self.function *) "name"; (* ptrace/syscall/syscall_argument.py 106 self.function *) "process"; (* ptrace/syscall/syscall_argument.py 108 func_call *) "format";
   (* ptrace/syscall/syscall_argument.py 171 self.function *) "process"; (* ptrace/syscall/syscall_argument.py 178 self.function *) "arguments"; (* ptrace/syscall/syscall_argument.py 182 self.function *) "name";
   (* ptrace/syscall/syscall_argument.py 194 self.function *) "process"; (* ptrace/syscall/syscall_argument.py 202 self.function *) "process"; (* ptrace/syscall/syscall_argument.py 217 self.function *) "process";
   (* ptrace/syscall/syscall_argument.py 233 self.function *) "process"].

(** ptrace/debugger/application.py 36-44 *)
Definition log_options : list optdef :=
  [(* 38 *) Option [T "--quiet"; T "-q"] None; (* 40 *) Option [T "--verbose"; T "-v"] None;
   (* 42 *) Option [T "--debug"] None].
(** ptrace/debugger/application.py 81-91 *)
Definition common_options : list optdef :=
  [(* 82 *) Option [T "--pid"; T "-p"] None; (* 84 *) Option [T "--fork"; T "-f"] None;
   (* 86 *) Option [T "--trace-exec"] None; (* 88 *) Option [T "--trace-clone"] None;
   (* 90 *) Option [T "--no-stdout"] None].
(** strace.py 38-135 *)
Definition strace_options : list optdef :=
  [(* 42 *) Option [T "--enter"] None; (* 44 *) Option [T "--profiler"] None;
   (* 46 *) Option [T "--type"] None; (* 48 *) Option [T "--name"] None;
   (* 50 *) Option [T "--string-length"; T "-s"] None; (* 52 *) Option [T "--array-count"] None;
   (* 54 *) Option [T "--raw-socketcall"] None; (* 56 *) Option [T "--output"; T "-o"] None;
   (* 58 *) Option [T "--ignore-regex"] None; (* 60 *) Option [T "--address"] None;
   (* 62 *) Option [T "--syscalls"; T "-e"] None; (* 64 *) Option [T "--socket"] None;
   (* 66 *) Option [T "--filename"] None; (* 68 *) Option [T "--show-pid"] None;
   (* 71 *) Option [T "--list-syscalls"] None; (* 74 *) Option [T "-i"; T "--show-ip"] None].
(** examples/itrace.py 22-26 *)
Definition itrace_options : list optdef :=
  [(* 23 *) Option [T "-n"] (Some (T "syscall_limit"))].
(** runtests.py 44-72 *)
Definition runtests_options : list optdef :=
  [(* 44 *) Option [T "-v"; T "--verbose"] (Some (T "verbose")); (* 47 *) Option [T "-x"] (Some (T "exclude"));
   (* 49 *) Option [T "-f"; T "--failfast"] (Some (T "failfast")); (* 52 *) Option [T "-c"; T "--catch"] (Some (T "catchbreak"));
   (* 55 *) Option [T "--forever"] (Some (T "forever")); (* 58 *) Option [T "--findleaks"] (Some (T "findleaks"));
   (* 61 *) Option [T "-q"] (Some (T "quiet")); (* 63 *) Option [T "--tests"] (Some (T "testsdir"));
   (* 66 *) Option [T "--coverage"] (Some (T "coverage")); (* 69 *) Option [T "--pattern"] None].
(** The options that the methods of a class read *)
Definition option_reads : list (attr * list text) :=
  [(* examples/itrace.py *) ("Tracer", [(* 29 *) T "syscall_limit"]);
   (* gdb.py *) ("Gdb", [(* 160 *) T "pid"; (* 165 *) T "fork"]);
   (* ptrace/debugger/application.py *) ("Application", [(* 22 *) T "debug"; (* 24 *) T "verbose"; (* 26 *) T "quiet"; (* 47 *) T "no_stdout"; (* 51 *) T "fork"; (* 57 *) T "trace_exec"; (* 59 *) T "trace_clone"; (* 63, 64 *) T "pid"]);
   (* strace.py *) ("SyscallTracer", [(* 30, 31 *) T "output"; (* 82 *) T "list_syscalls"; (* 89 *) T "pid"; (* 95, 97 *) T "syscalls"; (* 114 *) T "filename"; (* 119 *) T "socket"; (* 122, 124, 127 *) T "ignore_regex"; (* 132 *) T "fork"; (* 150 *) T "show_pid"; (* 152, 241 *) T "show_ip"; (* 194, 204 *) T "enter"; (* 234 *) T "type"; (* 235 *) T "name"; (* 236 *) T "string_length"; (* 237 *) T "raw_socketcall"; (* 238 *) T "address"; (* 239 *) T "array_count"; (* 246 *) T "profiler"])].
(** runtests.py: args.x *)
Definition runtests_reads : list text :=
  [(* 201, 235, 269 *) T "coverage"; (* 217, 241 *) T "testsdir"; (* 224 *) T "exclude"; (* 225, 227 *) T "pattern"; (* 229 *) T "quiet"; (* 229 *) T "verbose"; (* 230 *) T "failfast"; (* 231 *) T "catchbreak"; (* 232 *) T "findleaks"; (* 256 *) T "forever"].
