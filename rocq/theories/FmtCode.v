(** * FmtCode: the formats of the project (every s % args whose left side is a constant; in ptrace/debugger/signal_reason.py 134 self.PREFIX_ADDR is the constant of
    one of three classes), written out by reading the files as text. *)
From Coq Require Import ZArith List Ascii String.
From Verif Require Import PyBase FmtModel.
Import ListNotations.
Open Scope Z_scope.

(** SYSCALL_PROTOTYPES.codegen.py *)
Definition formats_SYSCALL_PROTOTYPES_codegen : list use := [
  U 44 (T """%s"": (""%s"", (") true [Any; Any];
  U 46 (T "    (""%s"", ""%s""),") true [Any; Any]].
(** examples/itrace.py *)
Definition formats_examples_itrace : list use := [
  U 39 (T "[%08x]") false [Int];
  U 48 (T "died with signal %i") false [Int]].
(** examples/simple_dbg.py *)
Definition formats_examples_simple_dbg : list use := [
  U 15 (T "New process event: %s") false [Any];
  U 30 (T "usage: %s program [arg1 arg2 ...]") false [Any];
  U 31 (T "   or: %s pid") false [Any]].
(** gdb.py *)
Definition formats_gdb : list use := [
  U 109 (T "%02x") false [Int];
  U 111 (T "%02x") false [Int];
  U 172 (T "Send %s to %s") true [Any; Any];
  U 201 (T "Stopped at %s") false [Any];
  U 216 (T "Space are forbidden: %r") false [Any];
  U 236 (T "Invalid expression: %r") false [Any];
  U 249 (T "Invalid expression: %r") false [Any];
  U 293 (T "term[%s] pid[%i] %s %s pointers: %s") true [Any; Int; Any; Any; Any];
  U 361 (T "Unknown command: %r") false [Any];
  U 379 (T "Invalid signal number: %r") false [Any];
  U 401 (T "Decimal: %s") false [Any];
  U 402 (T "Hexadecimal: %s") false [Any];
  U 406 (T "Address is part of mapping: %s") false [Any];
  U 441 (T "End address (%s) is smaller than start address(%s)!") true [Any; Any];
  U 474 (T "Warning: Unable to read memory %s") false [Any];
  U 479 (T "%s| %s| %s") true [Any; Any; Any];
  U 489 (T "Warning: Unable to read memory %s") false [Any];
  U 492 (T "(limit to %s bytes)") false [Any];
  U 500 (T "--limited to depth %s--") false [Any];
  U 532 (T "Register name (%s) have to start with ""$""") false [Any];
  U 535 (T "Invalid command: %r") false [Any];
  U 543 (T "Unable to set $%s=%s: %s") true [Any; Any; Any];
  U 544 (T "Set $%s to %s") true [Any; Any];
  U 551 (T "%s %s: %s") true [Any; Any; Any];
  U 556 (T "Unable to read current instruction: %s") false [Any];
  U 574 (T "Unable to read instruction size at %s") false [Any];
  U 601 (T "New process: %s") false [Any];
  U 617 (T "%s = %s") true [Any; Any];
  U 619 (T "Process %s exits %s") true [Any; Any];
  U 624 (T "Process %s enters %s") true [Any; Any];
  U 657 (T "There is not process %s") false [Any];
  U 663 (T "Switch to %s") false [Any];
  U 678 (T "%s:%s") true [Any; Any];
  U 686 (T "% 2s: %s") true [Any; Any];
  U 696 (T "Warning: Unable to read instruction size at %s: %s") true [Any; Any];
  U 711 (T "Unable to set breakpoint at %s: %s") true [Any; Any];
  U 713 (T "New breakpoint: %s") false [Any];
  U 724 (T "No breakpoint at %s ") false [Any];
  U 726 (T "%s deleted") false [Any];
  U 731 (T "%s: %s") true [Any; Any];
  U 742 (T "%s interrupted by %s") true [Any; Any];
  U 750 (T "Debugger process ID: %s") false [Any];
  U 751 (T "python-ptrace version %s") false [Any];
  U 752 (T "Website: %s") false [Any];
  U 764 (T "Interrupt %s (send SIGINT)") false [Any];
  U 768 (T "Wait %s interruption") false [Any];
  U 807 (T "Replay previous command: %s") false [Any];
  U 825 (T "Command error: %s") false [Any];
  U 844 (T "ERROR: %s") false [Any]].
(** ptrace/binding/func.py *)
Definition formats_ptrace_binding_func : list use := [
  U 165 (T "ptrace(cmd=%s, pid=%s, %r, %r) error #%s: %s") true [Any; Any; Any; Any; Any; Any];
  U 187 (T "ptrace can't read a word from an unaligned address (%s)!") false [Any];
  U 195 (T "ptrace can't write a word to an unaligned address (%s)!") false [Any]].
(** ptrace/binding/linux_struct.py *)
Definition formats_ptrace_binding_linux_struct : list use := [
  U 119 (T "r%i") false [Int];
  U 121 (T "r%i") false [Int]].
(** ptrace/cpu_info.py *)
Definition formats_ptrace_cpu_info : list use := [
  U 64 (T "Unknown architecture bits: %r") false [Any]].
(** ptrace/ctypes_tools.py *)
Definition formats_ptrace_ctypes_tools : list use := [
  U 60 (T "0x%04x") false [Int];
  U 67 (T "0x%08x") false [Int];
  U 74 (T "0x%016x") false [Int];
  U 143 (T "%s-%s") true [Any; Any]].
(** ptrace/debugger/application.py *)
Definition formats_ptrace_debugger_application : list use := [
  U 66 (T "Attach process %s") false [Any];
  U 76 (T "ERROR: You are not allowed to trace process %s (permission denied or process already traced)") false [Any];
  U 78 (T "ERROR: Process can no be attached! %s") false [Any]].
(** ptrace/debugger/backtrace.py *)
Definition formats_ptrace_debugger_backtrace : list use := [
  U 23 (T "IP=%s: %s (%s)") true [Any; Any; Any]].
(** ptrace/debugger/breakpoint.py *)
Definition formats_ptrace_debugger_breakpoint : list use := [
  U 27 (T "Install %s") false [Any];
  U 47 (T "Desinstall %s") false [Any];
  U 58 (T "<Breakpoint %s..%s>") true [Any; Any]].
(** ptrace/debugger/debugger.py *)
Definition formats_ptrace_debugger_debugger : list use := [
  U 81 (T "The process %s is already registered!") false [Any];
  U 84 (T "Attach %s to debugger") false [Any];
  U 91 (T "User interrupt! Force the process %s attach (don't wait for signals).") false [Any];
  U 129 (T "Unknown PID: %r") false [Any];
  U 140 (T "Unwanted PID: %r (instead of %s)") true [Any; Any];
  U 165 (T "waitpid() warning: Unknown PID %r") false [Any];
  U 252 (T "Debugger trace forks (options=%s)") false [Any]].
(** ptrace/debugger/memory_mapping.py *)
Definition formats_ptrace_debugger_memory_mapping : list use := [
  U 62 (T "%s-%s") true [Any; Any];
  U 64 (T " => %s") false [Any];
  U 65 (T " (%s)") false [Any];
  U 116 (T "%s/maps") false [Any];
  U 118 (T "Unable to read process maps: %s") false [Any];
  U 125 (T "Unable to parse memory mapping: %r") false [Any]].
(** ptrace/debugger/parse_expr.py *)
Definition formats_ptrace_debugger_parse_expr : list use := [
  U 50 (T "Space are forbidden: %r") false [Any];
  U 66 (T "Invalid expression: %r") false [Any];
  U 75 (T "Invalid expression: %r") false [Any]].
(** ptrace/debugger/process.py *)
Definition formats_ptrace_debugger_process : list use := [
  U 188 (T "Attach process %s") false [Any];
  U 199 (T "Unable to read instruction pointer: %s") false [Any];
  U 208 (T "Unable to dump code at %s: %s") true [Any; Any];
  U 223 (T "%02x") false [Int];
  U 225 (T "%02x") false [Int];
  U 226 (T "CODE: %s") false [Any];
  U 240 (T "%s| %s (%s)") true [Any; Any; Any];
  U 252 (T "%s| %s (%s)") true [Any; Any; Any];
  U 296 (T "Detach %s") false [Any];
  U 315 (T "Terminate %s") false [Any];
  U 368 (T "Unknown process status: %r") false [Any];
  U 413 (T "Unknown ptrace event: %r") false [Any];
  U 436 (T "Unknown register: %r") false [Any];
  U 457 (T "Unknown register: %r") false [Any];
  U 556 (T "/proc/%u/mem") false [Int];
  U 560 (T "Unable to open %s: fallback to ptrace implementation") false [Any];
  U 573 (T "readBytes(%s, %s) error: %s") true [Any; Any; Any];
  U 680 (T "STACK: %s") false [Any];
  U 690 (T "STACK%+ 3i: %s") true [Int; Any];
  U 695 (T "ERROR: unable to read the stack (SP=%s)") false [Any];
  U 704 (T "MAPS: %s") false [Any];
  U 719 (T "Unable to read registers: %s") false [Any];
  U 729 (T "Set %s options to %s") true [Any; Any];
  U 750 (T "A breakpoint is already set: %s") false [Any];
  U 771 (T "<PtraceProcess #%s>") false [Any]].
(** ptrace/debugger/process_event.py *)
Definition formats_ptrace_debugger_process_event : list use := [
  U 28 (T "Process %s killed by signal %s") true [Any; Any];
  U 32 (T "Process %s exited normally") false [Any];
  U 34 (T "Process %s exited with code %s") true [Any; Any];
  U 36 (T "Process %s terminated abnormally") false [Any];
  U 50 (T "Process %s execution") false [Any];
  U 61 (T "New process %s") false [Any]].
(** ptrace/debugger/ptrace_signal.py *)
Definition formats_ptrace_debugger_ptrace_signal : list use := [
  U 53 (T "err: %s") false [Any];
  U 62 (T "Signal %s") false [Any];
  U 89 (T "^(?:MOV|TEST)[A-Z]* %s,") false [Any];
  U 98 (T "^%s %s,") true [Any; Any];
  U 107 (T "%s [^,]+, %s") true [Any; Any];
  U 227 (T "PID: %s") false [Any];
  U 228 (T "Signal: %s") false [Any]].
(** ptrace/debugger/signal_reason.py *)
Definition formats_ptrace_debugger_signal_reason : list use := [
  U 15 (T "\b(?:%s)\b") false [Any];
  U 53 (T "..%s") false [Any];
  U 59 (T "%s is part of %s") true [Any; Any];
  U 61 (T "%s is not mapped in memory") false [Any];
  U 83 (T "- instruction: %s") false [Any];
  U 85 (T "- mapping: %s") false [Any];
  U 87 (T "- register %s=%s") true [Any; Any];
  U 110 (T "STACK OVERFLOW! Stack pointer is in %s") false [Any];
  U 134 (T "Invalid memory access to %s") false [Any];
  U 134 (T "Invalid read from %s") false [Any];
  U 134 (T "Invalid write to %s") false [Any];
  U 138 (T " (size=%s bytes)") false [Any];
  U 163 (T "UNABLE TO EXECUTE CODE AT %s (SEGMENTATION FAULT)") false [Any];
  U 174 (T "Child process %s") false [Any];
  U 184 (T "Signal sent by user %s") false [Any]].
(** ptrace/disasm.py *)
Definition formats_ptrace_disasm : list use := [
  U 51 (T "%s %s") true [Any; Any];
  U 71 (T "Unable to disassemble %r") false [Any]].
(** ptrace/error.py *)
Definition formats_ptrace_error : list use := [
  U 32 (T "[%s] %s") true [Any; Any];
  U 51 (T "%s: %s") true [Any; Any]].
(** ptrace/func_arg.py *)
Definition formats_ptrace_func_arg : list use := [
  U 42 (T "Format argument %s of function %s() value error") true [Any; Any];
  U 52 (T "%s %s=%s") true [Any; Any; Any];
  U 54 (T "%s=%s") true [Any; Any];
  U 56 (T "(%s)%s") true [Any; Any];
  U 65 (T "%s at %s") true [Any; Any];
  U 86 (T "%s=%s") true [Any; Any];
  U 88 (T "<%s %s>") true [Any; Any];
  U 102 (T "<(%s)>") false [Any];
  U 105 (T "argument %s of %s()") true [Any; Any]].
(** ptrace/func_call.py *)
Definition formats_ptrace_func_call : list use := [
  U 58 (T "%r has no argument called %r") true [Any; Any];
  U 72 (T "%s %s(%s)") true [Any; Any; Any];
  U 74 (T "%s(%s)") true [Any; Any];
  U 77 (T "<FunctionCall name=%r>") false [Any]].
(** ptrace/linux_proc.py *)
Definition formats_ptrace_linux_proc : list use := [
  U 27 (T "/proc/%s") false [Any];
  U 31 (T "Unable to open %r: %s") true [Any; Any];
  U 49 (T "/proc/%s/%s") true [Any; Any];
  U 53 (T "Process %s doesn't exist: %s") true [Any; Any];
  U 139 (T "/proc/%s/%s") true [Any; Any];
  U 142 (T "Unable to read proc link %r: %s") true [Any; Any];
  U 178 (T "[%s]") false [Any];
  U 213 (T "Unable to find process: %r") false [Any]].
(** ptrace/process_tools.py *)
Definition formats_ptrace_process_tools : list use := [
  U 29 (T "Process ID: %s") false [Any];
  U 36 (T "Process ID: %s") false [Any];
  U 38 (T " (parent: %s)") false [Any];
  U 43 (T "%s (%s)") true [Any; Any];
  U 46 (T "Process state: %s") false [Any];
  U 48 (T "Process command line: %r") false [Any];
  U 70 (T ", ... (skip %s vars)") false [Any];
  U 71 (T "Process environment: %s") false [Any];
  U 76 (T "Process working directory: %s") false [Any];
  U 84 (T "%s/status") false [Any];
  U 92 (T "User identifier: %s") false [Any];
  U 94 (T " (effective: %s)") false [Any];
  U 97 (T "Group identifier: %s") false [Any];
  U 99 (T " (effective: %s)") false [Any];
  U 112 (T "%s stopped by signal %s") true [Any; Any];
  U 115 (T "%s killed by signal %s") true [Any; Any];
  U 119 (T "%s exited with code %s") true [Any; Any];
  U 121 (T "%s exited normally") false [Any]].
(** ptrace/pydistorm.py *)
Definition formats_ptrace_pydistorm : list use := [
  U 71 (T "%s %s") true [Any; Any];
  U 86 (T "code have to be a bytes, not %s") true [Any]].
(** ptrace/signames.py *)
Definition formats_ptrace_signames : list use := [
  U 60 (T "signal<%s>") false [Any]].
(** ptrace/syscall/posix_arg.py *)
Definition formats_ptrace_syscall_posix_arg : list use := [
  U 64 (T "%s (%s)") true [Any; Any];
  U 89 (T "%s") false [Any];
  U 123 (T "%s") false [Any];
  U 124 (T "<%s> (%s)") true [Any; Any]].
(** ptrace/syscall/ptrace_syscall.py *)
Definition formats_ptrace_syscall_ptrace_syscall : list use := [
  U 90 (T "syscall<%s>") false [Any];
  U 146 (T "%s %s (%s)") true [Any; Any; Any];
  U 149 (T "%s (%s)") true [Any; Any];
  U 156 (T "<Syscall name=%r>") false [Any]].
(** ptrace/syscall/socketcall.py *)
Definition formats_ptrace_syscall_socketcall : list use := [
  U 22 (T "<%s>") false [Any];
  U 41 (T "<sockaddr family=%s>") false [Any]].
(** ptrace/syscall/socketcall_struct.py *)
Definition formats_ptrace_syscall_socketcall_struct : list use := [
  U 55 (T "%04x") false [Int];
  U 56 (T "<in6_addr %s>") false [Any]].
(** ptrace/syscall/syscall_argument.py *)
Definition formats_ptrace_syscall_syscall_argument : list use := [
  U 108 (T "<%s>") false [Any];
  U 134 (T "Warning: Format %r value error") false [Any];
  U 172 (T "<%s>") false [Any];
  U 180 (T "[%s]") false [Any];
  U 190 (T "<sigset=(%s)>") false [Any];
  U 239 (T "(... more than %s strings ...)") false [Any];
  U 241 (T "<(%s)>") false [Any]].
(** ptrace/tools.py *)
Definition formats_ptrace_tools : list use := [
  U 13 (T "%% %us") false [Int];
  U 23 (T "%s = %s") true [Any; Any];
  U 70 (T "%s") false [Any];
  U 72 (T "<%s> (%s)") true [Any; Any]].
(** strace.py *)
Definition formats_strace : list use := [
  U 86 (T "% 3s: %s") true [Any; Any];
  U 105 (T "ERROR: unknown syscall %r") false [Any];
  U 126 (T "Invalid regular expression! %s") false [Any];
  U 127 (T "(regex: %r)") false [Any];
  U 148 (T "%-40s = %s") true [Any; Any];
  U 151 (T "[%s]") false [Any];
  U 153 (T "[%s]") false [Any];
  U 209 (T "*** %s ***") false [Any];
  U 217 (T "*** New process %s ***") false [Any];
  U 223 (T "*** Process %s execution ***") false [Any];
  U 265 (T "ptrace() error: %s") false [Any];
  U 279 (T "execve(%s, %s, [/* 40 vars */]) = %s") true [Any; Any; Any]].
(** test_doc.py *)
Definition formats_test_doc : list use := [
  U 8 (T "--- %s: Run tests") false [Any];
  U 13 (T "--- %s: End of tests") false [Any];
  U 25 (T "--- Test module %s") false [Any]].
(** tests/test_gdb.py *)
Definition formats_tests_test_gdb : list use := [
  U 32 (T "Traceback in output: %r") false [Any]].
(** tests/test_strace.py *)
Definition formats_tests_test_strace : list use := [
  U 51 (T "exit(%d)") false [Int];
  U 56 (T "import os; os.kill(os.getpid(), %d)") false [Int];
  U 70 (T "open(%a).close()") false [Any]].
Definition formats : list use := formats_SYSCALL_PROTOTYPES_codegen ++ formats_examples_itrace ++ formats_examples_simple_dbg ++ formats_gdb ++ formats_ptrace_binding_func ++ formats_ptrace_binding_linux_struct ++ formats_ptrace_cpu_info ++ formats_ptrace_ctypes_tools ++ formats_ptrace_debugger_application ++ formats_ptrace_debugger_backtrace ++ formats_ptrace_debugger_breakpoint ++ formats_ptrace_debugger_debugger ++ formats_ptrace_debugger_memory_mapping ++ formats_ptrace_debugger_parse_expr ++ formats_ptrace_debugger_process ++ formats_ptrace_debugger_process_event ++ formats_ptrace_debugger_ptrace_signal ++ formats_ptrace_debugger_signal_reason ++ formats_ptrace_disasm ++ formats_ptrace_error ++ formats_ptrace_func_arg ++ formats_ptrace_func_call ++ formats_ptrace_linux_proc ++ formats_ptrace_process_tools ++ formats_ptrace_pydistorm ++ formats_ptrace_signames ++ formats_ptrace_syscall_posix_arg ++ formats_ptrace_syscall_ptrace_syscall ++ formats_ptrace_syscall_socketcall ++ formats_ptrace_syscall_socketcall_struct ++ formats_ptrace_syscall_syscall_argument ++ formats_ptrace_tools ++ formats_strace ++ formats_test_doc ++ formats_tests_test_gdb ++ formats_tests_test_strace.
