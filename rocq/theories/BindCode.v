(** * BindCode: the functions, classes and calls of the project (generated from the source).
    Functions: name (with the module), parameters (see [signature]), with their lines; a function defined twice under different conditions is listed twice.
    Classes: the methods, with self.  Calls: the lines, what is called, the number of positional arguments, the keywords.
    Left out: calls of functions and methods of Python and other libraries, and of parameters of a function (log(...)).
    The class of the object of a call is read from the code: process is a PtraceProcess, event in event.display() a ProcessSignal, and so on; formatAddressRange(...) with
    a star (gdb.py 475, 490) gets a pair.  Tables of functions (ARGUMENT_CALLBACK, POINTER_CALLBACK, STRUCT_CALLBACK) give one call for each function. *)
From Coq Require Import List Bool PArith.
From Verif Require Import BindNames BindModel.
Import ListNotations.
Open Scope pname_scope.

(** ptrace/binding/func.py *)
Definition fun_ptrace_binding_func : list (pname * signature) :=
  [(* 147-169 *) ("ptrace.binding.func.ptrace", Sig ["command"; "pid"; "arg1"; "arg2"; "check_errno"] 4 false [] false);
   (* 172-173 *) ("ptrace.binding.func.ptrace_traceme", Sig [] 0 false [] false);
   (* 176-177 *) ("ptrace.binding.func.ptrace_attach", Sig ["pid"] 0 false [] false);
   (* 180-181 *) ("ptrace.binding.func.ptrace_detach", Sig ["pid"; "signal"] 1 false [] false);
   (* 184-189 *) ("ptrace.binding.func._peek", Sig ["command"; "pid"; "address"] 0 false [] false);
   (* 192-197 *) ("ptrace.binding.func._poke", Sig ["command"; "pid"; "address"; "word"] 0 false [] false);
   (* 200-201 *) ("ptrace.binding.func.ptrace_peektext", Sig ["pid"; "address"] 0 false [] false);
   (* 204-205 *) ("ptrace.binding.func.ptrace_peekdata", Sig ["pid"; "address"] 0 false [] false);
   (* 208-209 *) ("ptrace.binding.func.ptrace_peekuser", Sig ["pid"; "address"] 0 false [] false);
   (* 212-213 *) ("ptrace.binding.func.ptrace_poketext", Sig ["pid"; "address"; "word"] 0 false [] false);
   (* 216-217 *) ("ptrace.binding.func.ptrace_pokedata", Sig ["pid"; "address"; "word"] 0 false [] false);
   (* 220-221 *) ("ptrace.binding.func.ptrace_pokeuser", Sig ["pid"; "address"; "word"] 0 false [] false);
   (* 224-225 *) ("ptrace.binding.func.ptrace_kill", Sig ["pid"] 0 false [] false);
   (* 229-230 *) ("ptrace.binding.func.WPTRACEEVENT", Sig ["status"] 0 false [] false);
   (* 232-233 *) ("ptrace.binding.func.ptrace_setoptions", Sig ["pid"; "options"] 0 false [] false);
   (* 235-238 *) ("ptrace.binding.func.ptrace_geteventmsg", Sig ["pid"] 0 false [] false);
   (* 241-242 *) ("ptrace.binding.func.ptrace_syscall", Sig ["pid"; "signum"] 1 false [] false);
   (* 244-245 *) ("ptrace.binding.func.ptrace_cont", Sig ["pid"; "signum"] 1 false [] false);
   (* 247-250 *) ("ptrace.binding.func.ptrace_getsiginfo", Sig ["pid"] 0 false [] false);
   (* 252-253 *) ("ptrace.binding.func.ptrace_setsiginfo", Sig ["pid"; "info"] 0 false [] false);
   (* 255-258 *) ("ptrace.binding.func.ptrace_getfpregs", Sig ["pid"] 0 false [] false);
   (* 260-261 *) ("ptrace.binding.func.ptrace_setfpregs", Sig ["pid"; "fpregs"] 0 false [] false);
   (* 264-267 *) ("ptrace.binding.func.ptrace_getfpxregs", Sig ["pid"] 0 false [] false);
   (* 269-270 *) ("ptrace.binding.func.ptrace_setfpxregs", Sig ["pid"; "fpxregs"] 0 false [] false);
   (* 273-276 *) ("ptrace.binding.func.ptrace_getregs", Sig ["pid"] 0 false [] false);
   (* 279-285 *) ("ptrace.binding.func.ptrace_getregs", Sig ["pid"] 0 false [] false);
   (* 288-289 *) ("ptrace.binding.func.ptrace_setregs", Sig ["pid"; "regs"] 0 false [] false);
   (* 292-296 *) ("ptrace.binding.func.ptrace_setregs", Sig ["pid"; "regs"] 0 false [] false);
   (* 299-300 *) ("ptrace.binding.func.ptrace_singlestep", Sig ["pid"] 0 false [] false);
   (* 303-304 *) ("ptrace.binding.func.ptrace_syscall", Sig ["pid"; "signum"] 1 false [] false);
   (* 306-307 *) ("ptrace.binding.func.ptrace_cont", Sig ["pid"; "signum"] 1 false [] false);
   (* 310-313 *) ("ptrace.binding.func.ptrace_getregs", Sig ["pid"] 0 false [] false);
   (* 315-316 *) ("ptrace.binding.func.ptrace_setregs", Sig ["pid"; "regs"] 0 false [] false);
   (* 319-320 *) ("ptrace.binding.func.ptrace_singlestep", Sig ["pid"] 0 false [] false);
   (* 323-324 *) ("ptrace.binding.func.ptrace_io", Sig ["pid"; "io_desc"] 0 false [] false)].
(** ptrace/ctypes_tools.py *)
Definition fun_ptrace_ctypes_tools : list (pname * signature) :=
  [(* 6-19 *) ("ptrace.ctypes_tools.int2uint64", Sig ["value"] 0 false [] false);
   (* 22-39 *) ("ptrace.ctypes_tools.uint2int64", Sig ["value"] 0 false [] false);
   (* 42-46 *) ("ptrace.ctypes_tools.truncateWord32", Sig ["value"] 0 false [] false);
   (* 49-53 *) ("ptrace.ctypes_tools.truncateWord64", Sig ["value"] 0 false [] false);
   (* 56-60 *) ("ptrace.ctypes_tools.formatUintHex16", Sig ["value"] 0 false [] false);
   (* 63-67 *) ("ptrace.ctypes_tools.formatUintHex32", Sig ["value"] 0 false [] false);
   (* 70-74 *) ("ptrace.ctypes_tools.formatUintHex64", Sig ["value"] 0 false [] false);
   (* 77-88 *) ("ptrace.ctypes_tools.int2uint32", Sig ["value"] 0 false [] false);
   (* 91-111 *) ("ptrace.ctypes_tools.uint2int32", Sig ["value"] 0 false [] false);
   (* 128-136 *) ("ptrace.ctypes_tools.formatAddress", Sig ["address"] 0 false [] false);
   (* 139-143 *) ("ptrace.ctypes_tools.formatAddressRange", Sig ["start"; "end"] 0 false [] false);
   (* 146-150 *) ("ptrace.ctypes_tools.ntoh_ushort", Sig ["value"] 0 false [] false);
   (* 153-157 *) ("ptrace.ctypes_tools.ntoh_uint", Sig ["value"] 0 false [] false);
   (* 160-164 *) ("ptrace.ctypes_tools.word2bytes", Sig ["word"] 0 false [] false);
   (* 167-171 *) ("ptrace.ctypes_tools.bytes2word", Sig ["bytes"] 0 false [] false);
   (* 174-178 *) ("ptrace.ctypes_tools.bytes2type", Sig ["bytes"; "type"] 0 false [] false);
   (* 181-186 *) ("ptrace.ctypes_tools.bytes2array", Sig ["bytes"; "basetype"; "size"] 0 false [] false)].
(** ptrace/debugger/backtrace.py *)
Definition fun_ptrace_debugger_backtrace : list (pname * signature) :=
  [(* 45-93 *) ("ptrace.debugger.backtrace.getBacktrace", Sig ["process"; "max_args"; "max_depth"] 2 false [] false);
   (* 96-115 *) ("ptrace.debugger.backtrace.getBacktraceFrame", Sig ["process"; "ip"; "fp"; "nargs"] 0 false [] false)].
(** ptrace/debugger/child.py *)
Definition fun_ptrace_debugger_child : list (pname * signature) :=
  [(* 31-38 *) ("ptrace.debugger.child._set_cloexec_flag", Sig ["fd"] 0 false [] false);
   (* 41-50 *) ("ptrace.debugger.child._waitpid_no_intr", Sig ["pid"; "options"] 0 false [] false);
   (* 53-62 *) ("ptrace.debugger.child._read_no_intr", Sig ["fd"; "buffersize"] 0 false [] false);
   (* 65-74 *) ("ptrace.debugger.child._write_no_intr", Sig ["fd"; "s"] 0 false [] false);
   (* 77-84 *) ("ptrace.debugger.child._createParent", Sig ["pid"; "errpipe_read"] 0 false [] false);
   (* 87-120 *) ("ptrace.debugger.child._createChild", Sig ["arguments"; "no_stdout"; "env"; "errpipe_write"; "close_fds"; "pass_fds"] 2 false [] false);
   (* 123-139 *) ("ptrace.debugger.child._execChild", Sig ["arguments"; "no_stdout"; "env"] 0 false [] false);
   (* 142-173 *) ("ptrace.debugger.child.createChild", Sig ["arguments"; "no_stdout"; "env"; "close_fds"; "pass_fds"] 3 false [] false)].
(** ptrace/debugger/memory_mapping.py *)
Definition fun_ptrace_debugger_memory_mapping : list (pname * signature) :=
  [(* 103-139 *) ("ptrace.debugger.memory_mapping.readProcessMappings", Sig ["process"] 0 false [] false)].
(** ptrace/debugger/parse_expr.py *)
Definition fun_ptrace_debugger_parse_expr : list (pname * signature) :=
  [(* 16-27 *) ("ptrace.debugger.parse_expr.replaceHexadecimal", Sig ["regs"] 0 false [] false);
   (* 30-76 *) ("ptrace.debugger.parse_expr.parseExpression", Sig ["process"; "text"] 0 false [] false);
   (* 53-56 *) ("ptrace.debugger.parse_expr.readRegister", Sig ["regs"] 0 false [] false)].
(** ptrace/debugger/ptrace_signal.py *)
Definition fun_ptrace_debugger_ptrace_signal : list (pname * signature) :=
  [(* 38-43 *) ("ptrace.debugger.ptrace_signal.findDerefSize", Sig ["match"] 0 false [] false);
   (* 46-54 *) ("ptrace.debugger.ptrace_signal.evalFaultAddress", Sig ["process"; "match"] 0 false [] false)].
(** ptrace/debugger/signal_reason.py *)
Definition fun_ptrace_debugger_signal_reason : list (pname * signature) :=
  [(* 20-36 *) ("ptrace.debugger.signal_reason.extractRegisters", Sig ["process"; "instr"] 0 false [] false);
   (* 39-62 *) ("ptrace.debugger.signal_reason.findMappings", Sig ["addresses"; "process"; "size"] 0 false [] false)].
(** ptrace/disasm.py *)
Definition fun_ptrace_disasm : list (pname * signature) :=
  [(* 56-62 *) ("ptrace.disasm.disassemble", Sig ["code"; "address"] 1 false [] false);
   (* 64-71 *) ("ptrace.disasm.disassembleOne", Sig ["code"; "address"] 1 false [] false)].
(** ptrace/error.py *)
Definition fun_ptrace_error : list (pname * signature) :=
  [(* 9-24 *) ("ptrace.error.writeBacktrace", Sig ["logger"; "log_level"] 1 false [] false);
   (* 27-32 *) ("ptrace.error.formatError", Sig ["error"] 0 false [] false);
   (* 35-52 *) ("ptrace.error.writeError", Sig ["logger"; "error"; "title"; "log_level"] 2 false [] false)].
(** ptrace/linux_proc.py *)
Definition fun_ptrace_linux_proc : list (pname * signature) :=
  [(* 23-31 *) ("ptrace.linux_proc.openProc", Sig ["path"] 0 false [] false);
   (* 34-40 *) ("ptrace.linux_proc.readProc", Sig ["path"] 0 false [] false);
   (* 43-53 *) ("ptrace.linux_proc.readProcessProc", Sig ["pid"; "key"] 0 false [] false);
   (* 102-107 *) ("ptrace.linux_proc.readProcessStat", Sig ["pid"] 0 false [] false);
   (* 110-117 *) ("ptrace.linux_proc.readProcessStatm", Sig ["pid"] 0 false [] false);
   (* 120-131 *) ("ptrace.linux_proc.readProcessProcList", Sig ["pid"; "key"] 0 false [] false);
   (* 134-142 *) ("ptrace.linux_proc.readProcessLink", Sig ["pid"; "key"] 0 false [] false);
   (* 145-157 *) ("ptrace.linux_proc.readProcesses", Sig [] 0 false [] false);
   (* 160-181 *) ("ptrace.linux_proc.readProcessCmdline", Sig ["pid"; "escape_stat"] 1 false [] false);
   (* 184-202 *) ("ptrace.linux_proc.searchProcessesByName", Sig ["process_name"] 0 false [] false);
   (* 205-213 *) ("ptrace.linux_proc.searchProcessByName", Sig ["process_name"] 0 false [] false);
   (* 216-223 *) ("ptrace.linux_proc.getUptime", Sig [] 0 false [] false);
   (* 226-242 *) ("ptrace.linux_proc.getSystemBoot", Sig [] 0 false [] false)].
(** ptrace/logging_tools.py *)
Definition fun_ptrace_logging_tools : list (pname * signature) :=
  [(* 5-18 *) ("ptrace.logging_tools.getLogFunc", Sig ["logger"; "level"] 0 false [] false);
   (* 21-30 *) ("ptrace.logging_tools.changeLogLevel", Sig ["level"; "delta"] 0 false [] false)].
(** ptrace/process_tools.py *)
Definition fun_ptrace_process_tools : list (pname * signature) :=
  [(* 21-103 *) ("ptrace.process_tools.dumpProcessInfo", Sig ["log"; "pid"; "max_length"] 1 false [] false);
   (* 106-124 *) ("ptrace.process_tools.formatProcessStatus", Sig ["status"; "title"] 1 false [] false)].
(** ptrace/profiler.py *)
Definition fun_ptrace_profiler : list (pname * signature) :=
  [(* 7-16 *) ("ptrace.profiler.calibrate", Sig ["n"] 0 false [] false);
   (* 19-45 *) ("ptrace.profiler.runProfiler", Sig ["logger"; "func"; "args"; "kw"; "verbose"; "nb_func"; "sort_by"; "nb_cal"] 6 false [] false)].
(** ptrace/pydistorm.py *)
Definition fun_ptrace_pydistorm : list (pname * signature) :=
  [(* 78-127 *) ("ptrace.pydistorm.Decode", Sig ["codeOffset"; "code"; "dt"] 1 false [] false)].
(** ptrace/signames.py *)
Definition fun_ptrace_signames : list (pname * signature) :=
  [(* 12-41 *) ("ptrace.signames.getSignalNames", Sig [] 0 false [] false);
   (* 47-60 *) ("ptrace.signames.signalName", Sig ["signum"] 0 false [] false)].
(** ptrace/syscall/posix_arg.py *)
Definition fun_ptrace_syscall_posix_arg : list (pname * signature) :=
  [(* 15-16 *) ("ptrace.syscall.posix_arg.formatMmapProt", Sig ["argument"] 0 false [] false);
   (* 27-28 *) ("ptrace.syscall.posix_arg.formatAccessMode", Sig ["argument"] 0 false [] false);
   (* 54-65 *) ("ptrace.syscall.posix_arg.formatOpenFlags", Sig ["argument"] 0 false [] false);
   (* 81-90 *) ("ptrace.syscall.posix_arg.formatOpenMode", Sig ["argument"] 0 false [] false);
   (* 116-126 *) ("ptrace.syscall.posix_arg.formatCloneFlags", Sig ["argument"] 0 false [] false);
   (* 132-134 *) ("ptrace.syscall.posix_arg.formatDirFd", Sig ["argument"] 0 false [] false)].
(** ptrace/syscall/socketcall.py *)
Definition fun_ptrace_syscall_socketcall : list (pname * signature) :=
  [(* 16-24 *) ("ptrace.syscall.socketcall.formatOptVal", Sig ["argument"] 0 false [] false);
   (* 27-41 *) ("ptrace.syscall.socketcall.formatSockaddr", Sig ["argument"; "argtype"] 0 false [] false);
   (* 44-58 *) ("ptrace.syscall.socketcall.setupSocketCall", Sig ["function"; "process"; "socketcall"; "address"] 0 false [] false);
   (* 61-64 *) ("ptrace.syscall.socketcall.formatSockaddrInStruct", Sig ["argument"; "name"; "value"] 0 false [] false);
   (* 67-72 *) ("ptrace.syscall.socketcall.formatSockaddrIn6Struct", Sig ["argument"; "name"; "value"] 0 false [] false)].
(** ptrace/syscall/socketcall_constants.py *)
Definition fun_ptrace_syscall_socketcall_constants : list (pname * signature) :=
  [(* 62-73 *) ("ptrace.syscall.socketcall_constants.formatSocketType", Sig ["argument"] 0 false [] false)].
(** ptrace/syscall/socketcall_struct.py *)
Definition fun_ptrace_syscall_socketcall_struct : list (pname * signature) :=
  [(* 8-16 *) ("ptrace.syscall.socketcall_struct.ip_int2str", Sig ["ip"] 0 false [] false)].
(** ptrace/syscall/syscall_argument.py *)
Definition fun_ptrace_syscall_syscall_argument : list (pname * signature) :=
  [(* 66-70 *) ("ptrace.syscall.syscall_argument.iterBits", Sig ["data"] 0 false [] false);
   (* 186-188 *) ("ptrace.syscall.syscall_argument.formatter", Sig ["key"] 0 false [] false)].
(** ptrace/terminal.py *)
Definition fun_ptrace_terminal : list (pname * signature) :=
  [(* 14-18 *) ("ptrace.terminal._terminalSize", Sig [] 0 false [] false);
   (* 21-25 *) ("ptrace.terminal.terminalWidth", Sig [] 0 false [] false);
   (* 28-41 *) ("ptrace.terminal.enableEchoMode", Sig [] 0 false [] false)].
(** ptrace/tools.py *)
Definition fun_ptrace_tools : list (pname * signature) :=
  [(* 8-23 *) ("ptrace.tools.dumpRegs", Sig ["log"; "regs"] 0 false [] false);
   (* 26-49 *) ("ptrace.tools.readBits", Sig ["value"; "bitmasks"] 0 false [] false);
   (* 52-78 *) ("ptrace.tools.formatBits", Sig ["value"; "bitmasks"; "empty_text"; "format_value"] 2 false [] false);
   (* 88-104 *) ("ptrace.tools.timestampUNIX", Sig ["value"; "is_local"] 0 false [] false);
   (* 107-128 *) ("ptrace.tools.locateProgram", Sig ["program"] 0 false [] false);
   (* 131-142 *) ("ptrace.tools.minmax", Sig ["min_value"; "value"; "max_value"] 0 false [] false);
   (* 145-155 *) ("ptrace.tools.inverseDict", Sig ["data"] 0 false [] false);
   (* 158-167 *) ("ptrace.tools.signal_to_exitcode", Sig ["signum"] 0 false [] false)].
(** gdb.py *)
Definition fun_gdb : list (pname * signature) :=
  [(* 95-104 *) ("gdb.formatAscii", Sig ["data"] 0 false [] false);
   (* 96-100 *) ("gdb.asciiChar", Sig ["byte"] 0 false [] false);
   (* 107-111 *) ("gdb.formatHexa", Sig ["data"] 0 false [] false);
   (* 117-122 *) ("gdb.getPointers", Sig ["process"; "address"] 0 false [] false);
   (* 224-231 *) ("gdb.readHexadecimal", Sig ["regs"] 0 false [] false)].
(** runtests.py *)
Definition fun_runtests : list (pname * signature) :=
  [(* 74-76 *) ("runtests.load_module", Sig ["modname"; "sourcefile"] 0 false [] false);
   (* 79-115 *) ("runtests.load_modules", Sig ["basedir"; "suffix"] 1 false [] false);
   (* 80-101 *) ("runtests.list_dir", Sig ["prefix"; "dir"] 0 false [] false);
   (* 198-277 *) ("runtests.runtests", Sig [] 0 false [] false)].
(** test_doc.py *)
Definition fun_test_doc : list (pname * signature) :=
  [(* 7-13 *) ("test_doc.testDoc", Sig ["filename"; "name"] 1 false [] false);
   (* 16-21 *) ("test_doc.importModule", Sig ["name"] 0 false [] false);
   (* 24-30 *) ("test_doc.testModule", Sig ["name"] 0 false [] false);
   (* 33-46 *) ("test_doc.main", Sig [] 0 false [] false)].
(** setup_cptrace.py *)
Definition fun_setup_cptrace : list (pname * signature) :=
  [(* 21-50 *) ("setup_cptrace.main", Sig [] 0 false [] false)].
(** examples/simple_dbg.py *)
Definition fun_examples_simple_dbg : list (pname * signature) :=
  [(* 7-15 *) ("examples.simple_dbg.playWithProcess", Sig ["process"] 0 false [] false);
   (* 17-25 *) ("examples.simple_dbg.traceProgram", Sig ["arguments"] 0 false [] false);
   (* 27-57 *) ("examples.simple_dbg.main", Sig [] 0 false [] false)].
Definition functions : list (pname * signature) := fun_ptrace_binding_func ++ fun_ptrace_ctypes_tools ++ fun_ptrace_debugger_backtrace ++ fun_ptrace_debugger_child ++ fun_ptrace_debugger_memory_mapping ++ fun_ptrace_debugger_parse_expr ++ fun_ptrace_debugger_ptrace_signal ++ fun_ptrace_debugger_signal_reason ++ fun_ptrace_disasm ++ fun_ptrace_error ++ fun_ptrace_linux_proc ++ fun_ptrace_logging_tools ++ fun_ptrace_process_tools ++ fun_ptrace_profiler ++ fun_ptrace_pydistorm ++ fun_ptrace_signames ++ fun_ptrace_syscall_posix_arg ++ fun_ptrace_syscall_socketcall ++ fun_ptrace_syscall_socketcall_constants ++ fun_ptrace_syscall_socketcall_struct ++ fun_ptrace_syscall_syscall_argument ++ fun_ptrace_terminal ++ fun_ptrace_tools ++ fun_gdb ++ fun_runtests ++ fun_test_doc ++ fun_setup_cptrace ++ fun_examples_simple_dbg.
(** ptrace/binding/linux_struct.py 15-20 *)
Definition cls_register_structure : cclass := CClass "register_structure" None
  [(* 16-20 *) ("__str__", Sig ["self"] 0 false [] false)].
(** ptrace/binding/linux_struct.py 23-216 *)
Definition cls_user_regs_struct : cclass := CClass "user_regs_struct" (Some "register_structure")
  [].
(** ptrace/binding/linux_struct.py 219-244 *)
Definition cls_user_fpregs_struct : cclass := CClass "user_fpregs_struct" (Some "register_structure")
  [].
(** ptrace/binding/linux_struct.py 248-263 *)
Definition cls_user_fpxregs_struct : cclass := CClass "user_fpxregs_struct" (Some "register_structure")
  [].
(** ptrace/debugger/application.py 13-91 *)
Definition cls_Application : cclass := CClass "Application" None
  [(* 15-16 *) ("__init__", Sig ["self"] 0 false [] false);
   (* 18-30 *) ("_setupLog", Sig ["self"; "fd"] 0 false [] false);
   (* 32-34 *) ("processOptions", Sig ["self"] 0 false [] false);
   (* 36-44 *) ("createLogOptions", Sig ["self"; "parser"] 0 false [] false);
   (* 46-47 *) ("createChild", Sig ["self"; "arguments"; "env"] 1 false [] false);
   (* 49-60 *) ("setupDebugger", Sig ["self"] 0 false [] false);
   (* 62-79 *) ("createProcess", Sig ["self"] 0 false [] false);
   (* 81-91 *) ("createCommonOptions", Sig ["self"; "parser"] 0 false [] false)].
(** ptrace/debugger/backtrace.py 6-23 *)
Definition cls_BacktraceFrame : cclass := CClass "BacktraceFrame" None
  [(* 16-19 *) ("__init__", Sig ["self"; "ip"] 0 false [] false);
   (* 21-23 *) ("__str__", Sig ["self"] 0 false [] false)].
(** ptrace/debugger/backtrace.py 26-42 *)
Definition cls_Backtrace : cclass := CClass "Backtrace" None
  [(* 31-33 *) ("__init__", Sig ["self"] 0 false [] false);
   (* 35-36 *) ("append", Sig ["self"; "frame"] 0 false [] false);
   (* 38-39 *) ("__iter__", Sig ["self"] 0 false [] false);
   (* 41-42 *) ("__len__", Sig ["self"] 0 false [] false)].
(** ptrace/debugger/breakpoint.py 9-66 *)
Definition cls_Breakpoint : cclass := CClass "Breakpoint" None
  [(* 16-37 *) ("__init__", Sig ["self"; "process"; "address"; "size"] 1 false [] false);
   (* 39-55 *) ("desinstall", Sig ["self"; "set_ip"] 1 false [] false);
   (* 57-60 *) ("__str__", Sig ["self"] 0 false [] false);
   (* 62-66 *) ("__del__", Sig ["self"] 0 false [] false)].
(** ptrace/debugger/debugger.py 16-17 *)
Definition cls_DebuggerError : cclass := CClass "DebuggerError" (Some "PtraceError")
  [].
(** ptrace/debugger/debugger.py 20-293 *)
Definition cls_PtraceDebugger : cclass := CClass "PtraceDebugger" None
  [(* 64-72 *) ("__init__", Sig ["self"] 0 false [] false);
   (* 74-102 *) ("addProcess", Sig ["self"; "pid"; "is_attached"; "parent"; "is_thread"] 2 false [] false);
   (* 104-114 *) ("quit", Sig ["self"] 0 false [] false);
   (* 116-142 *) ("_waitpid", Sig ["self"; "wanted_pid"; "blocking"] 1 false [] false);
   (* 144-166 *) ("_wait_event_pid", Sig ["self"; "wanted_pid"; "blocking"] 1 false [] false);
   (* 168-185 *) ("_wait_event", Sig ["self"; "wanted_pid"; "blocking"] 1 false [] false);
   (* 187-193 *) ("waitProcessEvent", Sig ["self"; "pid"; "blocking"] 2 false [] false);
   (* 195-209 *) ("waitSignals", Sig ["self"] 0 true [] true);
   (* 211-223 *) ("waitSyscall", Sig ["self"; "process"] 1 false [] false);
   (* 225-241 *) ("deleteProcess", Sig ["self"; "process"; "pid"] 2 false [] false);
   (* 243-252 *) ("traceFork", Sig ["self"] 0 false [] false);
   (* 254-262 *) ("traceExec", Sig ["self"] 0 false [] false);
   (* 264-272 *) ("traceClone", Sig ["self"] 0 false [] false);
   (* 274-284 *) ("enableSysgood", Sig ["self"] 0 false [] false);
   (* 286-287 *) ("__getitem__", Sig ["self"; "pid"] 0 false [] false);
   (* 289-290 *) ("__iter__", Sig ["self"] 0 false [] false);
   (* 292-293 *) ("__len__", Sig ["self"] 0 false [] false)].
(** ptrace/debugger/memory_mapping.py 25-100 *)
Definition cls_MemoryMapping : cclass := CClass "MemoryMapping" None
  [(* 47-56 *) ("__init__", Sig ["self"; "process"; "start"; "end"; "permissions"; "offset"; "major_device"; "minor_device"; "inode"; "pathname"] 0 false [] false);
   (* 58-59 *) ("__contains__", Sig ["self"; "address"] 0 false [] false);
   (* 61-66 *) ("__str__", Sig ["self"] 0 false [] false);
   (* 69-100 *) ("search", Sig ["self"; "bytestr"] 0 false [] false)].
(** ptrace/debugger/process.py 64-777 *)
Definition cls_PtraceProcess : cclass := CClass "PtraceProcess" None
  [(* 160-177 *) ("__init__", Sig ["self"; "debugger"; "pid"; "is_attached"; "parent"; "is_thread"] 2 false [] false);
   (* 179-183 *) ("isTraced", Sig ["self"] 0 false [] false);
   (* 185-190 *) ("attach", Sig ["self"] 0 false [] false);
   (* 192-209 *) ("dumpCode", Sig ["self"; "start"; "stop"; "manage_bp"; "log"] 4 false [] false);
   (* 211-256 *) ("_dumpCode", Sig ["self"; "start"; "stop"; "ip"; "manage_bp"; "log"] 0 false [] false);
   (* 258-275 *) ("disassemble", Sig ["self"; "start"; "stop"; "nb_instr"] 3 false [] false);
   (* 277-283 *) ("disassembleOne", Sig ["self"; "address"] 1 false [] false);
   (* 285-289 *) ("findStack", Sig ["self"] 0 false [] false);
   (* 291-298 *) ("detach", Sig ["self"] 0 false [] false);
   (* 300-307 *) ("_notRunning", Sig ["self"] 0 false [] false);
   (* 309-310 *) ("kill", Sig ["self"; "signum"] 0 false [] false);
   (* 312-332 *) ("terminate", Sig ["self"; "wait_exit"] 1 false [] false);
   (* 334-353 *) ("waitExit", Sig ["self"] 0 false [] false);
   (* 355-378 *) ("processStatus", Sig ["self"; "status"] 0 false [] false);
   (* 380-382 *) ("processTerminated", Sig ["self"] 0 false [] false);
   (* 384-391 *) ("processExited", Sig ["self"; "code"] 0 false [] false);
   (* 393-395 *) ("processKilled", Sig ["self"; "signum"] 0 false [] false);
   (* 397-399 *) ("processSignal", Sig ["self"; "signum"] 0 false [] false);
   (* 401-413 *) ("ptraceEvent", Sig ["self"; "event"] 0 false [] false);
   (* 415-427 *) ("getregs", Sig ["self"] 0 false [] false);
   (* 429-442 *) ("getreg", Sig ["self"; "name"] 0 false [] false);
   (* 444-445 *) ("setregs", Sig ["self"; "regs"] 0 false [] false);
   (* 447-459 *) ("setreg", Sig ["self"; "name"; "value"] 0 false [] false);
   (* 461-464 *) ("singleStep", Sig ["self"] 0 false [] false);
   (* 466-471 *) ("filterSignal", Sig ["self"; "signum"] 0 false [] false);
   (* 473-476 *) ("syscall", Sig ["self"; "signum"] 1 false [] false);
   (* 478-483 *) ("setInstrPointer", Sig ["self"; "ip"] 0 false [] false);
   (* 485-490 *) ("getInstrPointer", Sig ["self"] 0 false [] false);
   (* 492-496 *) ("getStackPointer", Sig ["self"] 0 false [] false);
   (* 498-502 *) ("getFramePointer", Sig ["self"] 0 false [] false);
   (* 504-536 *) ("_readBytes", Sig ["self"; "address"; "size"] 0 false [] false);
   (* 538-541 *) ("readWord", Sig ["self"; "address"] 0 false [] false);
   (* 544-552 *) ("readBytes", Sig ["self"; "address"; "size"] 0 false [] false);
   (* 554-585 *) ("readBytes", Sig ["self"; "address"; "size"] 0 false [] false);
   (* 589-592 *) ("getsiginfo", Sig ["self"] 0 false [] false);
   (* 594-640 *) ("writeBytes", Sig ["self"; "address"; "bytes"] 0 false [] false);
   (* 642-645 *) ("readStruct", Sig ["self"; "address"; "struct"] 0 false [] false);
   (* 647-650 *) ("readArray", Sig ["self"; "address"; "basetype"; "count"] 0 false [] false);
   (* 652-673 *) ("readCString", Sig ["self"; "address"; "max_size"; "chunk_length"] 1 false [] false);
   (* 675-681 *) ("dumpStack", Sig ["self"; "log"] 1 false [] false);
   (* 683-695 *) ("_dumpStack", Sig ["self"; "log"] 0 false [] false);
   (* 697-698 *) ("readMappings", Sig ["self"] 0 false [] false);
   (* 700-704 *) ("dumpMaps", Sig ["self"; "log"] 1 false [] false);
   (* 706-710 *) ("writeWord", Sig ["self"; "address"; "word"] 0 false [] false);
   (* 712-719 *) ("dumpRegs", Sig ["self"; "log"] 1 false [] false);
   (* 721-724 *) ("cont", Sig ["self"; "signum"] 1 false [] false);
   (* 726-730 *) ("setoptions", Sig ["self"; "options"] 0 false [] false);
   (* 732-733 *) ("waitEvent", Sig ["self"] 0 false [] false);
   (* 735-736 *) ("waitSignals", Sig ["self"] 0 true [] false);
   (* 738-739 *) ("waitSyscall", Sig ["self"] 0 false [] false);
   (* 741-745 *) ("findBreakpoint", Sig ["self"; "address"] 0 false [] false);
   (* 747-753 *) ("createBreakpoint", Sig ["self"; "address"; "size"] 1 false [] false);
   (* 755-756 *) ("getBacktrace", Sig ["self"; "max_args"; "max_depth"] 2 false [] false);
   (* 758-759 *) ("removeBreakpoint", Sig ["self"; "breakpoint"] 0 false [] false);
   (* 761-765 *) ("__del__", Sig ["self"] 0 false [] false);
   (* 767-768 *) ("__str__", Sig ["self"] 0 false [] false);
   (* 770-771 *) ("__repr__", Sig ["self"] 0 false [] false);
   (* 773-774 *) ("__hash__", Sig ["self"] 0 false [] false);
   (* 776-777 *) ("notImplementedError", Sig ["self"] 0 false [] false)].
(** ptrace/debugger/process_error.py 4-8 *)
Definition cls_ProcessError : cclass := CClass "ProcessError" (Some "PtraceError")
  [(* 6-8 *) ("__init__", Sig ["self"; "process"; "message"] 0 false [] false)].
(** ptrace/debugger/process_event.py 4-14 *)
Definition cls_ProcessEvent : cclass := CClass "ProcessEvent" None
  [(* 12-14 *) ("__init__", Sig ["self"; "process"; "message"] 0 false [] false)].
(** ptrace/debugger/process_event.py 17-39 *)
Definition cls_ProcessExit : cclass := CClass "ProcessExit" (Some "ProcessEvent")
  [(* 25-39 *) ("__init__", Sig ["self"; "process"; "signum"; "exitcode"] 2 false [] false)].
(** ptrace/debugger/process_event.py 42-50 *)
Definition cls_ProcessExecution : cclass := CClass "ProcessExecution" (Some "ProcessEvent")
  [(* 48-50 *) ("__init__", Sig ["self"; "process"] 0 false [] false)].
(** ptrace/debugger/process_event.py 53-61 *)
Definition cls_NewProcessEvent : cclass := CClass "NewProcessEvent" (Some "ProcessEvent")
  [(* 60-61 *) ("__init__", Sig ["self"; "process"] 0 false [] false)].
(** ptrace/debugger/ptrace_signal.py 57-231 *)
Definition cls_ProcessSignal : cclass := CClass "ProcessSignal" (Some "ProcessEvent")
  [(* 59-64 *) ("__init__", Sig ["self"; "signum"; "process"] 0 false [] false);
   (* 66-75 *) ("_analyze", Sig ["self"] 0 false [] false);
   (* 77-83 *) ("getInstruction", Sig ["self"] 0 false [] false);
   (* 85-120 *) ("memoryFaultInstr", Sig ["self"; "instr"; "fault_address"] 0 false [] false);
   (* 122-155 *) ("movsInstr", Sig ["self"; "fault_address"; "instr"; "match"] 0 false [] false);
   (* 157-161 *) ("getSignalInfo", Sig ["self"] 0 false [] false);
   (* 163-203 *) ("memoryFault", Sig ["self"] 0 false [] false);
   (* 205-212 *) ("mathError", Sig ["self"] 0 false [] false);
   (* 214-220 *) ("childExit", Sig ["self"] 0 false [] false);
   (* 222-231 *) ("display", Sig ["self"; "log"] 1 false [] false)].
(** ptrace/debugger/signal_reason.py 65-90 *)
Definition cls_SignalInfo : cclass := CClass "SignalInfo" None
  [(* 67-77 *) ("__init__", Sig ["self"; "name"; "text"; "address"; "size"; "instr"; "process"; "registers"] 5 false [] false);
   (* 79-87 *) ("display", Sig ["self"; "log"] 0 false [] false);
   (* 89-90 *) ("displayExtra", Sig ["self"; "log"] 0 false [] false)].
(** ptrace/debugger/signal_reason.py 93-97 *)
Definition cls_DivisionByZero : cclass := CClass "DivisionByZero" (Some "SignalInfo")
  [(* 95-97 *) ("__init__", Sig ["self"; "instr"; "process"] 2 false [] false)].
(** ptrace/debugger/signal_reason.py 100-104 *)
Definition cls_Abort : cclass := CClass "Abort" (Some "SignalInfo")
  [(* 102-104 *) ("__init__", Sig ["self"] 0 false [] false)].
(** ptrace/debugger/signal_reason.py 107-116 *)
Definition cls_StackOverflow : cclass := CClass "StackOverflow" (Some "SignalInfo")
  [(* 109-116 *) ("__init__", Sig ["self"; "stack_ptr"; "stack_map"; "instr"; "process"] 2 false [] false)].
(** ptrace/debugger/signal_reason.py 119-144 *)
Definition cls_InvalidMemoryAccess : cclass := CClass "InvalidMemoryAccess" (Some "SignalInfo")
  [(* 124-144 *) ("__init__", Sig ["self"; "address"; "size"; "instr"; "registers"; "process"] 5 false [] false)].
(** ptrace/debugger/signal_reason.py 147-150 *)
Definition cls_InvalidRead : cclass := CClass "InvalidRead" (Some "InvalidMemoryAccess")
  [].
(** ptrace/debugger/signal_reason.py 153-156 *)
Definition cls_InvalidWrite : cclass := CClass "InvalidWrite" (Some "InvalidMemoryAccess")
  [].
(** ptrace/debugger/signal_reason.py 159-167 *)
Definition cls_InstructionError : cclass := CClass "InstructionError" (Some "SignalInfo")
  [(* 161-167 *) ("__init__", Sig ["self"; "address"; "process"] 1 false [] false)].
(** ptrace/debugger/signal_reason.py 170-184 *)
Definition cls_ChildExit : cclass := CClass "ChildExit" (Some "SignalInfo")
  [(* 172-180 *) ("__init__", Sig ["self"; "pid"; "status"; "uid"] 3 false [] false);
   (* 182-184 *) ("displayExtra", Sig ["self"; "log"] 0 false [] false)].
(** ptrace/debugger/syscall_state.py 5-48 *)
Definition cls_SyscallState : cclass := CClass "SyscallState" None
  [(* 7-11 *) ("__init__", Sig ["self"; "process"] 0 false [] false);
   (* 13-17 *) ("event", Sig ["self"; "options"] 0 false [] false);
   (* 19-30 *) ("enter", Sig ["self"; "options"] 0 false [] false);
   (* 32-43 *) ("exit", Sig ["self"] 0 false [] false);
   (* 45-48 *) ("clear", Sig ["self"] 0 false [] false)].
(** ptrace/disasm.py 31-54 *)
Definition cls_Instruction : cclass := CClass "Instruction" None
  [(* 44-51 *) ("__init__", Sig ["self"; "instr"] 0 false [] false);
   (* 53-54 *) ("__str__", Sig ["self"] 0 false [] false)].
(** ptrace/error.py 55-63 *)
Definition cls_PtraceError : cclass := CClass "PtraceError" None
  [(* 60-63 *) ("__init__", Sig ["self"; "message"; "errno"; "pid"] 2 false [] false)].
(** ptrace/func_arg.py 6-105 *)
Definition cls_FunctionArgument : cclass := CClass "FunctionArgument" None
  [(* 20-28 *) ("__init__", Sig ["self"; "function"; "index"; "options"; "value"; "type"; "name"] 3 false [] false);
   (* 30-45 *) ("getText", Sig ["self"] 0 false [] false);
   (* 47-58 *) ("format", Sig ["self"] 0 false [] false);
   (* 60-61 *) ("createText", Sig ["self"] 0 false [] false);
   (* 63-67 *) ("formatPointer", Sig ["self"; "value"; "address"] 0 false [] false);
   (* 69-89 *) ("readStruct", Sig ["self"; "address"; "struct"] 0 false [] false);
   (* 91-92 *) ("formatStructValue", Sig ["self"; "struct"; "name"; "value"] 0 false [] false);
   (* 94-102 *) ("readArray", Sig ["self"; "address"; "basetype"; "count"] 0 false [] false);
   (* 104-105 *) ("__repr__", Sig ["self"] 0 false [] false)].
(** ptrace/func_call.py 4-19 *)
Definition cls_FunctionCallOptions : cclass := CClass "FunctionCallOptions" None
  [(* 9-19 *) ("__init__", Sig ["self"; "write_types"; "write_argname"; "replace_socketcall"; "string_max_length"; "write_address"; "max_array_count"] 6 false [] false)].
(** ptrace/func_call.py 22-77 *)
Definition cls_FunctionCall : cclass := CClass "FunctionCall" None
  [(* 37-43 *) ("__init__", Sig ["self"; "name"; "options"; "argument_class"] 1 false [] false);
   (* 45-48 *) ("addArgument", Sig ["self"; "value"; "name"; "type"] 3 false [] false);
   (* 50-51 *) ("clearArguments", Sig ["self"] 0 false [] false);
   (* 53-61 *) ("__getitem__", Sig ["self"; "key"] 0 false [] false);
   (* 63-74 *) ("format", Sig ["self"] 0 false [] false);
   (* 76-77 *) ("__repr__", Sig ["self"] 0 false [] false)].
(** ptrace/linux_proc.py 56-99 *)
Definition cls_ProcessState : cclass := CClass "ProcessState" None
  [(* 80-99 *) ("__init__", Sig ["self"; "stat"] 0 false [] false)].
(** ptrace/mockup.py 6-15 *)
Definition cls_FakeProcess : cclass := CClass "FakeProcess" None
  [(* 8-9 *) ("__init__", Sig ["self"] 0 false [] false);
   (* 11-12 *) ("setreg", Sig ["self"; "name"; "value"] 0 false [] false);
   (* 14-15 *) ("getreg", Sig ["self"; "name"] 0 false [] false)].
(** ptrace/pydistorm.py 50-58 *)
Definition cls__WString : cclass := CClass "_WString" None
  [(* 56-58 *) ("__str__", Sig ["self"] 0 false [] false)].
(** ptrace/pydistorm.py 61-71 *)
Definition cls__DecodedInst : cclass := CClass "_DecodedInst" None
  [(* 70-71 *) ("__str__", Sig ["self"] 0 false [] false)].
(** ptrace/syscall/ptrace_syscall.py 54-156 *)
Definition cls_PtraceSyscall : cclass := CClass "PtraceSyscall" (Some "FunctionCall")
  [(* 56-65 *) ("__init__", Sig ["self"; "process"; "options"; "regs"] 1 false [] false);
   (* 67-83 *) ("enter", Sig ["self"; "regs"] 1 false [] false);
   (* 85-90 *) ("readSyscall", Sig ["self"; "regs"] 0 false [] false);
   (* 92-109 *) ("readArgumentValues", Sig ["self"; "regs"] 0 false [] false);
   (* 111-119 *) ("readArguments", Sig ["self"; "argument_values"] 0 false [] false);
   (* 121-153 *) ("exit", Sig ["self"] 0 false [] false);
   (* 155-156 *) ("__str__", Sig ["self"] 0 false [] false)].
(** ptrace/syscall/socketcall_struct.py 37-44 *)
Definition cls_in_addr : cclass := CClass "in_addr" None
  [(* 42-44 *) ("__repr__", Sig ["self"] 0 false [] false)].
(** ptrace/syscall/socketcall_struct.py 47-56 *)
Definition cls_in6_addr : cclass := CClass "in6_addr" None
  [(* 54-56 *) ("__repr__", Sig ["self"] 0 false [] false)].
(** ptrace/syscall/syscall_argument.py 73-248 *)
Definition cls_SyscallArgument : cclass := CClass "SyscallArgument" (Some "FunctionArgument")
  [(* 75-152 *) ("createText", Sig ["self"] 0 false [] false);
   (* 154-191 *) ("formatValuePointer", Sig ["self"; "argtype"] 0 false [] false);
   (* 193-197 *) ("readBits", Sig ["self"; "address"; "count"; "format"] 1 false [] false);
   (* 199-210 *) ("readCString", Sig ["self"; "address"] 0 false [] false);
   (* 212-224 *) ("readString", Sig ["self"; "address"; "size"] 0 false [] false);
   (* 226-242 *) ("readCStringArray", Sig ["self"; "address"] 0 false [] false);
   (* 244-248 *) ("formatStructValue", Sig ["self"; "struct"; "name"; "value"] 0 false [] false)].
(** gdb.py 125-883 *)
Definition cls_Gdb : cclass := CClass "Gdb" (Some "Application")
  [(* 127-148 *) ("__init__", Sig ["self"] 0 false [] false);
   (* 150-151 *) ("setupLog", Sig ["self"] 0 false [] false);
   (* 153-165 *) ("parseOptions", Sig ["self"] 0 false [] false);
   (* 167-179 *) ("_continueProcess", Sig ["self"; "process"; "signum"] 1 false [] false);
   (* 181-205 *) ("cont", Sig ["self"; "signum"] 1 false [] false);
   (* 207-210 *) ("readRegister", Sig ["self"; "regs"] 0 false [] false);
   (* 212-252 *) ("parseInteger", Sig ["self"; "text"] 0 false [] false);
   (* 254-260 *) ("parseIntegers", Sig ["self"; "text"] 0 false [] false);
   (* 262-270 *) ("parseBytes", Sig ["self"; "text"] 0 false [] false);
   (* 272-275 *) ("addFollowTerm", Sig ["self"; "text"] 0 false [] false);
   (* 277-278 *) ("showFollowTerms", Sig ["self"] 0 false [] false);
   (* 280-285 *) ("_xray", Sig ["self"] 0 false [] false);
   (* 289-296 *) ("xray", Sig ["self"] 0 false [] false);
   (* 298-365 *) ("execute", Sig ["self"; "command"] 0 false [] false);
   (* 367-379 *) ("parseSignum", Sig ["self"; "command"] 0 false [] false);
   (* 381-394 *) ("signal", Sig ["self"; "command"] 0 false [] false);
   (* 396-407 *) ("print_", Sig ["self"; "command"] 0 false [] false);
   (* 409-427 *) ("gcore", Sig ["self"; "process"] 0 false [] false);
   (* 429-493 *) ("hexdump", Sig ["self"; "command"] 0 false [] false);
   (* 495-501 *) ("backtrace", Sig ["self"] 0 false [] false);
   (* 503-515 *) ("where", Sig ["self"; "command"; "manage_bp"] 1 false [] false);
   (* 517-518 *) ("procInfo", Sig ["self"] 0 false [] false);
   (* 520-525 *) ("procList", Sig ["self"] 0 false [] false);
   (* 527-545 *) ("set", Sig ["self"; "command"] 0 false [] false);
   (* 547-556 *) ("displayInstr", Sig ["self"; "prefix"] 0 false [] false);
   (* 558-564 *) ("attachProcess", Sig ["self"; "text"] 0 false [] false);
   (* 566-598 *) ("step", Sig ["self"; "enter_call"; "address"] 1 false [] false);
   (* 600-601 *) ("newProcess", Sig ["self"; "event"] 0 false [] false);
   (* 605-626 *) ("syscallTrace", Sig ["self"] 0 false [] false);
   (* 628-637 *) ("until", Sig ["self"; "command"] 0 false [] false);
   (* 639-658 *) ("switch", Sig ["self"; "command"] 0 false [] false);
   (* 660-664 *) ("switchProcess", Sig ["self"; "process"] 0 false [] false);
   (* 666-671 *) ("nextProcess", Sig ["self"] 0 false [] false);
   (* 673-680 *) ("displayBreakpoints", Sig ["self"] 0 false [] false);
   (* 682-686 *) ("displaySignals", Sig ["self"] 0 false [] false);
   (* 688-698 *) ("readInstrSize", Sig ["self"; "address"; "default_size"] 1 false [] false);
   (* 700-714 *) ("breakpoint", Sig ["self"; "command"] 0 false [] false);
   (* 716-727 *) ("delete", Sig ["self"; "command"] 0 false [] false);
   (* 729-736 *) ("help", Sig ["self"] 0 false [] false);
   (* 738-742 *) ("processSignal", Sig ["self"; "event"] 0 false [] false);
   (* 744-747 *) ("processExecution", Sig ["self"; "event"] 0 false [] false);
   (* 749-752 *) ("debuggerInfo", Sig ["self"] 0 false [] false);
   (* 754-774 *) ("interrupt", Sig ["self"] 0 false [] false);
   (* 776-784 *) ("deleteProcess", Sig ["self"; "pid"] 0 false [] false);
   (* 786-788 *) ("restoreTerminal", Sig ["self"] 0 false [] false);
   (* 790-847 *) ("mainLoop", Sig ["self"] 0 false [] false);
   (* 849-870 *) ("runDebugger", Sig ["self"] 0 false [] false);
   (* 872-883 *) ("main", Sig ["self"] 0 false [] false)].
(** strace.py 18-281 *)
Definition cls_SyscallTracer : cclass := CClass "SyscallTracer" (Some "Application")
  [(* 20-27 *) ("__init__", Sig ["self"] 0 false [] false);
   (* 29-36 *) ("setupLog", Sig ["self"] 0 false [] false);
   (* 38-135 *) ("parseOptions", Sig ["self"] 0 false [] false);
   (* 137-143 *) ("ignoreSyscall", Sig ["self"; "syscall"] 0 false [] false);
   (* 145-156 *) ("displaySyscall", Sig ["self"; "syscall"] 0 false [] false);
   (* 158-189 *) ("syscallTrace", Sig ["self"; "process"] 0 false [] false);
   (* 191-198 *) ("syscall", Sig ["self"; "process"] 0 false [] false);
   (* 200-209 *) ("processExited", Sig ["self"; "event"] 0 false [] false);
   (* 211-213 *) ("prepareProcess", Sig ["self"; "process"] 0 false [] false);
   (* 215-219 *) ("newProcess", Sig ["self"; "event"] 0 false [] false);
   (* 221-224 *) ("processExecution", Sig ["self"; "event"] 0 false [] false);
   (* 226-243 *) ("runDebugger", Sig ["self"] 0 false [] false);
   (* 245-253 *) ("main", Sig ["self"] 0 false [] false);
   (* 255-275 *) ("_main", Sig ["self"] 0 false [] false);
   (* 277-281 *) ("createChild", Sig ["self"; "program"] 0 false [] false)].
(** runtests.py 118-157 *)
Definition cls_TestsFinder : cclass := CClass "TestsFinder" None
  [(* 120-124 *) ("__init__", Sig ["self"; "testsdir"; "includes"; "excludes"] 2 false [] false);
   (* 126-135 *) ("find_available_tests", Sig ["self"] 0 false [] false);
   (* 137-157 *) ("load_tests", Sig ["self"] 0 false [] false)].
(** runtests.py 160-181 *)
Definition cls_TestResult : cclass := CClass "TestResult" None
  [(* 162-164 *) ("__init__", Sig ["self"; "stream"; "descriptions"; "verbosity"] 0 false [] false);
   (* 166-168 *) ("startTest", Sig ["self"; "test"] 0 false [] false);
   (* 170-181 *) ("addSuccess", Sig ["self"; "test"] 0 false [] false)].
(** runtests.py 184-195 *)
Definition cls_TestRunner : cclass := CClass "TestRunner" None
  [(* 187-195 *) ("run", Sig ["self"; "test"] 0 false [] false)].
(** examples/itrace.py 21-49 *)
Definition cls_Tracer : cclass := CClass "Tracer" (Some "SyscallTracer")
  [(* 22-26 *) ("createCommonOptions", Sig ["self"; "parser"] 0 false [] false);
   (* 28-49 *) ("syscallTrace", Sig ["self"; "process"] 0 false [] false)].
(** tests/test_gdb.py 11-75 *)
Definition cls_TestGdb : cclass := CClass "TestGdb" None
  [(* 13-33 *) ("run_command", Sig ["self"; "command"] 0 false [] false);
   (* 35-37 *) ("check_stdout", Sig ["self"; "pattern"; "stdout"] 0 false [] false);
   (* 39-49 *) ("test_proc", Sig ["self"] 0 false [] false);
   (* 51-53 *) ("test_print", Sig ["self"] 0 false [] false);
   (* 55-57 *) ("test_where", Sig ["self"] 0 false [] false);
   (* 59-61 *) ("test_regs", Sig ["self"] 0 false [] false);
   (* 63-65 *) ("test_backtrace", Sig ["self"] 0 false [] false);
   (* 67-69 *) ("test_maps", Sig ["self"] 0 false [] false);
   (* 71-75 *) ("test_dbginfo", Sig ["self"] 0 false [] false)].
(** tests/test_strace.py 17-110 *)
Definition cls_TestStrace : cclass := CClass "TestStrace" None
  [(* 18-32 *) ("strace", Sig ["self"] 0 true [] false);
   (* 34-41 *) ("assert_syscall", Sig ["self"; "code"; "regex"] 0 false [] false);
   (* 43-47 *) ("test_basic", Sig ["self"] 0 false [] false);
   (* 49-52 *) ("test_exitcode", Sig ["self"] 0 false [] false);
   (* 54-57 *) ("test_exitsignal", Sig ["self"] 0 false [] false);
   (* 59-67 *) ("test_getcwd", Sig ["self"] 0 false [] false);
   (* 69-72 *) ("test_open", Sig ["self"] 0 false [] false);
   (* 74-76 *) ("test_chdir", Sig ["self"] 0 false [] false);
   (* 78-85 *) ("test_rename", Sig ["self"] 0 false [] false);
   (* 87-92 *) ("test_link", Sig ["self"] 0 false [] false);
   (* 94-105 *) ("test_symlink", Sig ["self"] 0 false [] false);
   (* 107-110 *) ("test_socket", Sig ["self"] 0 false [] false)].
Definition classes : list cclass := [cls_register_structure; cls_user_regs_struct; cls_user_fpregs_struct; cls_user_fpxregs_struct; cls_Application; cls_BacktraceFrame; cls_Backtrace; cls_Breakpoint; cls_DebuggerError; cls_PtraceDebugger; cls_MemoryMapping; cls_PtraceProcess; cls_ProcessError; cls_ProcessEvent; cls_ProcessExit; cls_ProcessExecution; cls_NewProcessEvent; cls_ProcessSignal; cls_SignalInfo; cls_DivisionByZero; cls_Abort; cls_StackOverflow; cls_InvalidMemoryAccess; cls_InvalidRead; cls_InvalidWrite; cls_InstructionError; cls_ChildExit; cls_SyscallState; cls_Instruction; cls_PtraceError; cls_FunctionArgument; cls_FunctionCallOptions; cls_FunctionCall; cls_ProcessState; cls_FakeProcess; cls__WString; cls__DecodedInst; cls_PtraceSyscall; cls_in_addr; cls_in6_addr; cls_SyscallArgument; cls_Gdb; cls_SyscallTracer; cls_TestsFinder; cls_TestResult; cls_TestRunner; cls_Tracer; cls_TestGdb; cls_TestStrace].
(** ptrace/binding/func.py *)
Definition calls_ptrace_binding_func : list call :=
  [(* 155, 168 *) Call (TNew "PtraceError") (Exactly 1) ["errno"; "pid"];
   (* 173 *) Call (TFun "ptrace.binding.func.ptrace") (Exactly 1) [];
   (* 177, 225, 300 *) Call (TFun "ptrace.binding.func.ptrace") (Exactly 2) [];
   (* 181, 197, 233, 237, 242, 245, 249, 253, 257, 261, 266, 270, 275, 284, 289, 296, 304, 307 *) Call (TFun "ptrace.binding.func.ptrace") (Exactly 4) [];
   (* 186, 194 *) Call (TNew "PtraceError") (Exactly 1) ["pid"];
   (* 188, 196 *) Call (TFun "ptrace.ctypes_tools.formatAddress") (Exactly 1) [];
   (* 189 *) Call (TFun "ptrace.binding.func.ptrace") (Exactly 3) ["check_errno"];
   (* 201, 205, 209 *) Call (TFun "ptrace.binding.func._peek") (Exactly 3) [];
   (* 213, 217, 221 *) Call (TFun "ptrace.binding.func._poke") (Exactly 4) [];
   (* 312, 316, 320, 324 *) Call (TFun "ptrace.binding.func.ptrace") (Exactly 3) []].
(** ptrace/ctypes_tools.py *)
Definition calls_ptrace_ctypes_tools : list call :=
  [(* 134, 143 *) Call (TFun "ptrace.ctypes_tools.formatUintHex32") (Exactly 1) [];
   (* 134, 143 *) Call (TFun "ptrace.ctypes_tools.formatUintHex64") (Exactly 1) [];
   (* 186 *) Call (TFun "ptrace.ctypes_tools.bytes2type") (Exactly 2) []].
(** ptrace/debugger/application.py *)
Definition calls_ptrace_debugger_application : list call :=
  [(* 34 *) Call (TFun "ptrace.tools.locateProgram") (Exactly 1) [];
   (* 47 *) Call (TFun "ptrace.debugger.child.createChild") (Exactly 3) [];
   (* 53 *) Call (TMethod "PtraceDebugger" "traceFork") (Exactly 0) [];
   (* 58 *) Call (TMethod "PtraceDebugger" "traceExec") (Exactly 0) [];
   (* 60 *) Call (TMethod "PtraceDebugger" "traceClone") (Exactly 0) [];
   (* 68 *) Call (TMethod "Application" "createChild") (Exactly 1) [];
   (* 71 *) Call (TMethod "PtraceDebugger" "addProcess") (Exactly 1) ["is_attached"]].
(** ptrace/debugger/backtrace.py *)
Definition calls_ptrace_debugger_backtrace : list call :=
  [(* 22 *) Call (TFun "ptrace.ctypes_tools.formatUintHex32") (Exactly 1) [];
   (* 22 *) Call (TFun "ptrace.ctypes_tools.formatUintHex64") (Exactly 1) [];
   (* 23 *) Call (TFun "ptrace.ctypes_tools.formatAddress") (Exactly 1) [];
   (* 53 *) Call (TNew "Backtrace") (Exactly 0) [];
   (* 56 *) Call (TMethod "PtraceProcess" "getInstrPointer") (Exactly 0) [];
   (* 57 *) Call (TMethod "PtraceProcess" "getFramePointer") (Exactly 0) [];
   (* 67, 87, 110 *) Call (TMethod "PtraceProcess" "readWord") (Exactly 1) [];
   (* 79 *) Call (TFun "ptrace.debugger.backtrace.getBacktraceFrame") (Exactly 4) [];
   (* 80 *) Call (TMethod "Backtrace" "append") (Exactly 1) [];
   (* 105 *) Call (TNew "BacktraceFrame") (Exactly 1) []].
(** ptrace/debugger/breakpoint.py *)
Definition calls_ptrace_debugger_breakpoint : list call :=
  [(* 28 *) Call (TMethod "PtraceProcess" "readBytes") (Exactly 2) [];
   (* 32 *) Call (TFun "ptrace.ctypes_tools.word2bytes") (Exactly 1) [];
   (* 36, 52 *) Call (TMethod "PtraceProcess" "writeBytes") (Exactly 2) [];
   (* 54 *) Call (TMethod "PtraceProcess" "setInstrPointer") (Exactly 1) [];
   (* 55 *) Call (TMethod "PtraceProcess" "removeBreakpoint") (Exactly 1) [];
   (* 59, 60 *) Call (TFun "ptrace.ctypes_tools.formatAddress") (Exactly 1) [];
   (* 64 *) Call (TMethod "Breakpoint" "desinstall") (Exactly 1) []].
(** ptrace/debugger/child.py *)
Definition calls_ptrace_debugger_child : list call :=
  [(* 79 *) Call (TFun "ptrace.debugger.child._read_no_intr") (Exactly 2) [];
   (* 82 *) Call (TFun "ptrace.debugger.child._waitpid_no_intr") (Exactly 2) [];
   (* 95 *) Call (TFun "ptrace.binding.func.ptrace_traceme") (Exactly 0) [];
   (* 113 *) Call (TFun "ptrace.debugger.child._execChild") (Exactly 3) [];
   (* 119 *) Call (TFun "ptrace.debugger.child._write_no_intr") (Exactly 2) [];
   (* 158 *) Call (TFun "ptrace.debugger.child._set_cloexec_flag") (Exactly 1) [];
   (* 164 *) Call (TFun "ptrace.debugger.child._createParent") (Exactly 2) [];
   (* 168 *) Call (TFun "ptrace.debugger.child._createChild") (Exactly 4) ["close_fds"; "pass_fds"]].
(** ptrace/debugger/debugger.py *)
Definition calls_ptrace_debugger_debugger : list call :=
  [(* 72 *) Call (TMethod "PtraceDebugger" "enableSysgood") (Exactly 0) [];
   (* 82 *) Call (TNew "PtraceProcess") (Exactly 3) ["parent"; "is_thread"];
   (* 88 *) Call (TMethod "PtraceProcess" "waitSignals") (Exactly 2) [];
   (* 95 *) Call (TMethod "ProcessSignal" "display") (Exactly 0) [];
   (* 98, 114 *) Call (TMethod "PtraceProcess" "detach") (Exactly 0) [];
   (* 101 *) Call (TMethod "PtraceProcess" "setoptions") (Exactly 1) [];
   (* 113 *) Call (TMethod "PtraceProcess" "terminate") (Exactly 0) [];
   (* 129, 140 *) Call (TNew "DebuggerError") (Exactly 1) ["pid"];
   (* 153 *) Call (TMethod "PtraceDebugger" "_waitpid") (Exactly 2) [];
   (* 157 *) Call (TMethod "PtraceProcess" "processTerminated") (Exactly 0) [];
   (* 166 *) Call (TMethod "PtraceProcess" "processStatus") (Exactly 1) [];
   (* 170, 177, 185 *) Call (TMethod "PtraceDebugger" "_wait_event_pid") (Exactly 2) [];
   (* 193 *) Call (TMethod "PtraceDebugger" "_wait_event") (Exactly 2) [];
   (* 203 *) Call (TMethod "PtraceDebugger" "_wait_event") (Exactly 1) [];
   (* 221 *) Call (TMethod "PtraceDebugger" "waitSignals") (Exactly 1) ["pid"];
   (* 223 *) Call (TMethod "PtraceDebugger" "waitSignals") (Exactly 1) [];
   (* 248 *) Call (TNew "DebuggerError") (Exactly 1) []].
(** ptrace/debugger/memory_mapping.py *)
Definition calls_ptrace_debugger_memory_mapping : list call :=
  [(* 62 *) Call (TFun "ptrace.ctypes_tools.formatAddress") (Exactly 1) [];
   (* 87 *) Call (TMethod "PtraceProcess" "readBytes") (Exactly 2) [];
   (* 116 *) Call (TFun "ptrace.linux_proc.openProc") (Exactly 1) [];
   (* 118, 124 *) Call (TNew "ProcessError") (Exactly 2) [];
   (* 126 *) Call (TNew "MemoryMapping") (Exactly 9) []].
(** ptrace/debugger/parse_expr.py *)
Definition calls_ptrace_debugger_parse_expr : list call :=
  [(* 55 *) Call (TMethod "PtraceProcess" "getreg") (Exactly 1) [];
   (* 55 *) Call (TMethod "FakeProcess" "getreg") (Exactly 1) []].
(** ptrace/debugger/process.py *)
Definition calls_ptrace_debugger_process : list call :=
  [(* 172 *) Call (TMethod "PtraceProcess" "attach") (Exactly 0) [];
   (* 177 *) Call (TNew "SyscallState") (Exactly 1) [];
   (* 181, 260, 279, 403, 463, 591, 728 *) Call (TMethod "PtraceProcess" "notImplementedError") (Exactly 0) [];
   (* 182 *) Call (TFun "ptrace.linux_proc.readProcessStat") (Exactly 1) [];
   (* 189 *) Call (TFun "ptrace.binding.func.ptrace_attach") (Exactly 1) [];
   (* 196, 262, 281 *) Call (TMethod "PtraceProcess" "getInstrPointer") (Exactly 0) [];
   (* 206 *) Call (TMethod "PtraceProcess" "_dumpCode") (Exactly 5) [];
   (* 209, 240, 252, 574, 695 *) Call (TFun "ptrace.ctypes_tools.formatAddress") (Exactly 1) [];
   (* 221, 271, 282, 566, 584, 610, 637, 643, 648, 658 *) Call (TMethod "PtraceProcess" "readBytes") (Exactly 2) [];
   (* 236, 283 *) Call (TFun "ptrace.disasm.disassembleOne") (Exactly 2) [];
   (* 239 *) Call (TMethod "PtraceProcess" "disassembleOne") (Exactly 1) [];
   (* 251 *) Call (TMethod "PtraceProcess" "disassemble") (Exactly 2) [];
   (* 272 *) Call (TFun "ptrace.disasm.disassemble") (Exactly 2) [];
   (* 286, 703 *) Call (TMethod "PtraceProcess" "readMappings") (Exactly 0) [];
   (* 297 *) Call (TFun "ptrace.binding.func.ptrace_detach") (Exactly 1) [];
   (* 298 *) Call (TMethod "PtraceDebugger" "deleteProcess") (Exactly 0) ["process"];
   (* 307, 763 *) Call (TMethod "PtraceProcess" "detach") (Exactly 0) [];
   (* 319, 351 *) Call (TMethod "PtraceProcess" "cont") (Exactly 1) [];
   (* 321 *) Call (TMethod "PtraceProcess" "kill") (Exactly 1) [];
   (* 330, 389 *) Call (TMethod "PtraceProcess" "waitExit") (Exactly 0) [];
   (* 331, 381, 390, 394 *) Call (TMethod "PtraceProcess" "_notRunning") (Exactly 0) [];
   (* 337 *) Call (TMethod "PtraceProcess" "waitEvent") (Exactly 0) [];
   (* 353 *) Call (TMethod "PtraceProcess" "cont") (Exactly 0) [];
   (* 359 *) Call (TMethod "PtraceProcess" "processExited") (Exactly 1) [];
   (* 364 *) Call (TMethod "PtraceProcess" "processKilled") (Exactly 1) [];
   (* 368, 413, 436, 457, 482, 489, 496, 502, 573, 750 *) Call (TNew "ProcessError") (Exactly 2) [];
   (* 371, 372 *) Call (TFun "ptrace.binding.func.WPTRACEEVENT") (Exactly 1) [];
   (* 373 *) Call (TMethod "PtraceProcess" "ptraceEvent") (Exactly 1) [];
   (* 377 *) Call (TMethod "PtraceProcess" "processSignal") (Exactly 1) [];
   (* 382 *) Call (TNew "ProcessExit") (Exactly 1) [];
   (* 391 *) Call (TNew "ProcessExit") (Exactly 1) ["exitcode"];
   (* 395 *) Call (TNew "ProcessExit") (Exactly 1) ["signum"];
   (* 399 *) Call (TNew "ProcessSignal") (Exactly 2) [];
   (* 405 *) Call (TFun "ptrace.binding.func.ptrace_geteventmsg") (Exactly 1) [];
   (* 407 *) Call (TMethod "PtraceDebugger" "addProcess") (Exactly 1) ["is_attached"; "parent"; "is_thread"];
   (* 409 *) Call (TNew "NewProcessEvent") (Exactly 1) [];
   (* 411 *) Call (TNew "ProcessExecution") (Exactly 1) [];
   (* 417 *) Call (TFun "ptrace.binding.func.ptrace_getregs") (Exactly 1) [];
   (* 423 *) Call (TFun "ptrace.binding.func.ptrace_peekuser") (Exactly 2) [];
   (* 424, 510, 525 *) Call (TFun "ptrace.ctypes_tools.word2bytes") (Exactly 1) [];
   (* 427, 645 *) Call (TFun "ptrace.ctypes_tools.bytes2type") (Exactly 2) [];
   (* 437, 448, 716 *) Call (TMethod "PtraceProcess" "getregs") (Exactly 0) [];
   (* 445 *) Call (TFun "ptrace.binding.func.ptrace_setregs") (Exactly 2) [];
   (* 459 *) Call (TMethod "PtraceProcess" "setregs") (Exactly 1) [];
   (* 464 *) Call (TFun "ptrace.binding.func.ptrace_singlestep") (Exactly 1) [];
   (* 474, 722 *) Call (TMethod "PtraceProcess" "filterSignal") (Exactly 1) [];
   (* 475 *) Call (TFun "ptrace.binding.func.ptrace_syscall") (Exactly 2) [];
   (* 480 *) Call (TMethod "PtraceProcess" "setreg") (Exactly 2) [];
   (* 487, 494, 500 *) Call (TMethod "PtraceProcess" "getreg") (Exactly 1) [];
   (* 509, 524, 689 *) Call (TMethod "PtraceProcess" "readWord") (Exactly 1) [];
   (* 540 *) Call (TFun "ptrace.binding.func.ptrace_peektext") (Exactly 2) [];
   (* 551, 603 *) Call (TFun "ptrace.binding.func.ptrace_io") (Exactly 2) [];
   (* 592 *) Call (TFun "ptrace.binding.func.ptrace_getsiginfo") (Exactly 1) [];
   (* 618, 627, 640 *) Call (TMethod "PtraceProcess" "writeWord") (Exactly 2) [];
   (* 618, 626, 640 *) Call (TFun "ptrace.ctypes_tools.bytes2word") (Exactly 1) [];
   (* 650 *) Call (TFun "ptrace.ctypes_tools.bytes2array") (Exactly 3) [];
   (* 678 *) Call (TMethod "PtraceProcess" "findStack") (Exactly 0) [];
   (* 681 *) Call (TMethod "PtraceProcess" "_dumpStack") (Exactly 1) [];
   (* 684 *) Call (TMethod "PtraceProcess" "getStackPointer") (Exactly 0) [];
   (* 690 *) Call (TFun "ptrace.ctypes_tools.formatUintHex32") (Exactly 1) [];
   (* 690 *) Call (TFun "ptrace.ctypes_tools.formatUintHex64") (Exactly 1) [];
   (* 698 *) Call (TFun "ptrace.debugger.memory_mapping.readProcessMappings") (Exactly 1) [];
   (* 710 *) Call (TFun "ptrace.binding.func.ptrace_poketext") (Exactly 3) [];
   (* 717 *) Call (TFun "ptrace.tools.dumpRegs") (Exactly 2) [];
   (* 723 *) Call (TFun "ptrace.binding.func.ptrace_cont") (Exactly 2) [];
   (* 730 *) Call (TFun "ptrace.binding.func.ptrace_setoptions") (Exactly 2) [];
   (* 733 *) Call (TMethod "PtraceDebugger" "waitProcessEvent") (Exactly 0) ["pid"];
   (* 736 *) Call (TMethod "PtraceDebugger" "waitSignals") (AtLeast 0) ["pid"];
   (* 739 *) Call (TMethod "PtraceDebugger" "waitSyscall") (Exactly 1) [];
   (* 748 *) Call (TMethod "PtraceProcess" "findBreakpoint") (Exactly 1) [];
   (* 751 *) Call (TNew "Breakpoint") (Exactly 3) [];
   (* 756 *) Call (TFun "ptrace.debugger.backtrace.getBacktrace") (Exactly 1) ["max_args"; "max_depth"];
   (* 768 *) Call (TMethod "PtraceProcess" "__repr__") (Exactly 0) []].
(** ptrace/debugger/process_error.py *)
Definition calls_ptrace_debugger_process_error : list call :=
  [(* 7 *) Call (TStatic "PtraceError" "__init__") (Exactly 2) ["pid"]].
(** ptrace/debugger/process_event.py *)
Definition calls_ptrace_debugger_process_event : list call :=
  [(* 29 *) Call (TFun "ptrace.signames.signalName") (Exactly 1) [];
   (* 37, 49, 61 *) Call (TStatic "ProcessEvent" "__init__") (Exactly 3) []].
(** ptrace/debugger/ptrace_signal.py *)
Definition calls_ptrace_debugger_ptrace_signal : list call :=
  [(* 51 *) Call (TFun "ptrace.debugger.parse_expr.parseExpression") (Exactly 2) [];
   (* 61 *) Call (TFun "ptrace.signames.signalName") (Exactly 1) [];
   (* 62 *) Call (TStatic "ProcessEvent" "__init__") (Exactly 3) [];
   (* 68 *) Call (TMethod "ProcessSignal" "memoryFault") (Exactly 0) [];
   (* 70 *) Call (TMethod "ProcessSignal" "mathError") (Exactly 0) [];
   (* 72 *) Call (TMethod "ProcessSignal" "childExit") (Exactly 0) [];
   (* 74 *) Call (TNew "Abort") (Exactly 0) [];
   (* 81 *) Call (TMethod "PtraceProcess" "disassembleOne") (Exactly 0) [];
   (* 92, 101, 110 *) Call (TFun "ptrace.debugger.ptrace_signal.evalFaultAddress") (Exactly 2) [];
   (* 93 *) Call (TNew "InvalidWrite") (Exactly 1) ["size"; "instr"; "process"];
   (* 93, 102, 111 *) Call (TFun "ptrace.debugger.ptrace_signal.findDerefSize") (Exactly 1) [];
   (* 102, 111 *) Call (TNew "InvalidRead") (Exactly 1) ["size"; "instr"; "process"];
   (* 119 *) Call (TMethod "ProcessSignal" "movsInstr") (Exactly 3) [];
   (* 135, 139 *) Call (TMethod "PtraceProcess" "getreg") (Exactly 1) [];
   (* 154 *) Call (TNew "InvalidMemoryAccess") (Exactly 1) ["size"; "instr"; "registers"; "process"];
   (* 154 *) Call (TNew "InvalidRead") (Exactly 1) ["size"; "instr"; "registers"; "process"];
   (* 154 *) Call (TNew "InvalidWrite") (Exactly 1) ["size"; "instr"; "registers"; "process"];
   (* 159 *) Call (TMethod "PtraceProcess" "getsiginfo") (Exactly 0) [];
   (* 165, 215 *) Call (TMethod "ProcessSignal" "getSignalInfo") (Exactly 0) [];
   (* 174, 206 *) Call (TMethod "ProcessSignal" "getInstruction") (Exactly 0) [];
   (* 179 *) Call (TMethod "PtraceProcess" "getInstrPointer") (Exactly 0) [];
   (* 181 *) Call (TNew "InstructionError") (Exactly 1) ["process"];
   (* 187 *) Call (TMethod "PtraceProcess" "findStack") (Exactly 0) [];
   (* 189 *) Call (TMethod "PtraceProcess" "getStackPointer") (Exactly 0) [];
   (* 191 *) Call (TNew "StackOverflow") (Exactly 2) ["instr"; "process"];
   (* 197 *) Call (TMethod "ProcessSignal" "memoryFaultInstr") (Exactly 2) [];
   (* 202 *) Call (TNew "InvalidMemoryAccess") (Exactly 1) ["instr"; "process"];
   (* 212 *) Call (TNew "DivisionByZero") (Exactly 0) ["instr"; "process"];
   (* 218 *) Call (TNew "ChildExit") (Exactly 3) [];
   (* 220 *) Call (TNew "ChildExit") (Exactly 0) [];
   (* 223 *) Call (TMethod "ProcessSignal" "_analyze") (Exactly 0) [];
   (* 230 *) Call (TMethod "SignalInfo" "display") (Exactly 1) []].
(** ptrace/debugger/signal_reason.py *)
Definition calls_ptrace_debugger_signal_reason : list call :=
  [(* 32 *) Call (TMethod "PtraceProcess" "getreg") (Exactly 1) [];
   (* 47 *) Call (TMethod "PtraceProcess" "readMappings") (Exactly 0) [];
   (* 51, 53, 130, 133, 141, 163 *) Call (TFun "ptrace.ctypes_tools.formatAddress") (Exactly 1) [];
   (* 74 *) Call (TFun "ptrace.debugger.signal_reason.extractRegisters") (Exactly 2) [];
   (* 77 *) Call (TFun "ptrace.debugger.signal_reason.findMappings") (Exactly 3) [];
   (* 81 *) Call (TMethod "SignalInfo" "displayExtra") (Exactly 1) [];
   (* 87 *) Call (TFun "ptrace.ctypes_tools.formatUintHex32") (Exactly 1) [];
   (* 87 *) Call (TFun "ptrace.ctypes_tools.formatUintHex64") (Exactly 1) [];
   (* 96 *) Call (TStatic "SignalInfo" "__init__") (Exactly 3) ["instr"; "process"];
   (* 103, 177 *) Call (TStatic "SignalInfo" "__init__") (Exactly 3) [];
   (* 111 *) Call (TStatic "SignalInfo" "__init__") (Exactly 3) ["address"; "registers"; "instr"; "process"];
   (* 142 *) Call (TStatic "SignalInfo" "__init__") (Exactly 3) ["address"; "size"; "instr"; "process"; "registers"];
   (* 162 *) Call (TStatic "SignalInfo" "__init__") (Exactly 3) ["address"; "process"; "registers"];
   (* 174 *) Call (TFun "ptrace.process_tools.formatProcessStatus") (Exactly 2) []].
(** ptrace/debugger/syscall_state.py *)
Definition calls_ptrace_debugger_syscall_state : list call :=
  [(* 11, 42 *) Call (TMethod "SyscallState" "clear") (Exactly 0) [];
   (* 15 *) Call (TMethod "SyscallState" "exit") (Exactly 0) [];
   (* 17 *) Call (TMethod "SyscallState" "enter") (Exactly 1) [];
   (* 21 *) Call (TMethod "PtraceProcess" "getregs") (Exactly 0) [];
   (* 22 *) Call (TNew "PtraceSyscall") (Exactly 3) [];
   (* 25 *) Call (TMethod "SyscallTracer" "ignoreSyscall") (Exactly 1) [];
   (* 26 *) Call (TMethod "PtraceSyscall" "enter") (Exactly 1) [];
   (* 34 *) Call (TMethod "PtraceSyscall" "exit") (Exactly 0) [];
   (* 39 *) Call (TMethod "PtraceProcess" "syscall") (Exactly 0) [];
   (* 40 *) Call (TMethod "PtraceProcess" "waitSignals") (Exactly 2) []].
(** ptrace/disasm.py *)
Definition calls_ptrace_disasm : list call :=
  [(* 61 *) Call (TFun "ptrace.pydistorm.Decode") (Exactly 3) [];
   (* 62 *) Call (TNew "Instruction") (Exactly 1) [];
   (* 69 *) Call (TFun "ptrace.disasm.disassemble") (Exactly 2) [];
   (* 71 *) Call (TNew "PtraceError") (Exactly 1) []].
(** ptrace/error.py *)
Definition calls_ptrace_error : list call :=
  [(* 13, 50 *) Call (TFun "ptrace.logging_tools.getLogFunc") (Exactly 2) [];
   (* 51 *) Call (TFun "ptrace.error.formatError") (Exactly 1) [];
   (* 52 *) Call (TFun "ptrace.error.writeBacktrace") (Exactly 1) ["log_level"];
   (* 52 *) Call (TFun "ptrace.logging_tools.changeLogLevel") (Exactly 2) []].
(** ptrace/func_arg.py *)
Definition calls_ptrace_func_arg : list call :=
  [(* 33 *) Call (TMethod "FunctionArgument" "createText") (Exactly 0) [];
   (* 37, 65 *) Call (TFun "ptrace.ctypes_tools.formatAddress") (Exactly 1) [];
   (* 41, 84 *) Call (TFun "ptrace.error.writeError") (Exactly 3) [];
   (* 48 *) Call (TMethod "FunctionArgument" "getText") (Exactly 0) [];
   (* 73 *) Call (TMethod "PtraceProcess" "readStruct") (Exactly 2) [];
   (* 78 *) Call (TMethod "FunctionArgument" "formatStructValue") (Exactly 3) [];
   (* 89, 102 *) Call (TMethod "FunctionArgument" "formatPointer") (Exactly 2) [];
   (* 95 *) Call (TMethod "PtraceProcess" "readArray") (Exactly 3) []].
(** ptrace/func_call.py *)
Definition calls_ptrace_func_call : list call :=
  [(* 46 *) Call (TMethod "FunctionArgument" "__init__") (Exactly 6) [];
   (* 64 *) Call (TMethod "FunctionArgument" "format") (Exactly 0) []].
(** ptrace/linux_proc.py *)
Definition calls_ptrace_linux_proc : list call :=
  [(* 39, 231 *) Call (TFun "ptrace.linux_proc.openProc") (Exactly 1) [];
   (* 106, 115, 124 *) Call (TFun "ptrace.linux_proc.readProcessProc") (Exactly 2) [];
   (* 107 *) Call (TNew "ProcessState") (Exactly 1) [];
   (* 167 *) Call (TFun "ptrace.linux_proc.readProcessProcList") (Exactly 2) [];
   (* 175 *) Call (TFun "ptrace.linux_proc.readProcessStat") (Exactly 1) [];
   (* 196 *) Call (TFun "ptrace.linux_proc.readProcesses") (Exactly 0) [];
   (* 197 *) Call (TFun "ptrace.linux_proc.readProcessCmdline") (Exactly 1) [];
   (* 211 *) Call (TFun "ptrace.linux_proc.searchProcessesByName") (Exactly 1) [];
   (* 220 *) Call (TFun "ptrace.linux_proc.readProc") (Exactly 1) [];
   (* 236 *) Call (TFun "ptrace.tools.timestampUNIX") (Exactly 2) []].
(** ptrace/logging_tools.py *)
Definition calls_ptrace_logging_tools : list call :=
  [(* 30 *) Call (TFun "ptrace.tools.minmax") (Exactly 3) []].
(** ptrace/process_tools.py *)
Definition calls_ptrace_process_tools : list call :=
  [(* 32 *) Call (TFun "ptrace.linux_proc.readProcessStat") (Exactly 1) [];
   (* 48, 53 *) Call (TFun "ptrace.linux_proc.readProcessProcList") (Exactly 2) [];
   (* 76 *) Call (TFun "ptrace.linux_proc.readProcessLink") (Exactly 2) [];
   (* 84 *) Call (TFun "ptrace.linux_proc.openProc") (Exactly 1) [];
   (* 112, 115 *) Call (TFun "ptrace.signames.signalName") (Exactly 1) []].
(** ptrace/profiler.py *)
Definition calls_ptrace_profiler : list call :=
  [(* 26 *) Call (TFun "ptrace.profiler.calibrate") (Exactly 1) []].
(** ptrace/signames.py *)
Definition calls_ptrace_signames : list call :=
  [(* 44 *) Call (TFun "ptrace.signames.getSignalNames") (Exactly 0) []].
(** ptrace/syscall/posix_arg.py *)
Definition calls_ptrace_syscall_posix_arg : list call :=
  [(* 16, 28 *) Call (TFun "ptrace.tools.formatBits") (Exactly 3) [];
   (* 56, 83, 118 *) Call (TFun "ptrace.tools.readBits") (Exactly 2) [];
   (* 121 *) Call (TFun "ptrace.signames.signalName") (Exactly 1) [];
   (* 133 *) Call (TFun "ptrace.ctypes_tools.uint2int32") (Exactly 1) []].
(** ptrace/syscall/ptrace_syscall.py *)
Definition calls_ptrace_syscall_ptrace_syscall : list call :=
  [(* 57 *) Call (TStatic "FunctionCall" "__init__") (Exactly 4) [];
   (* 64, 69 *) Call (TMethod "PtraceProcess" "getregs") (Exactly 0) [];
   (* 65 *) Call (TMethod "PtraceSyscall" "readSyscall") (Exactly 1) [];
   (* 70 *) Call (TMethod "PtraceSyscall" "readArgumentValues") (Exactly 1) [];
   (* 71 *) Call (TMethod "PtraceSyscall" "readArguments") (Exactly 1) [];
   (* 74 *) Call (TFun "ptrace.syscall.socketcall.setupSocketCall") (Exactly 4) [];
   (* 80 *) Call (TMethod "SyscallArgument" "format") (Exactly 0) [];
   (* 102 *) Call (TMethod "PtraceProcess" "getStackPointer") (Exactly 0) [];
   (* 103 *) Call (TMethod "PtraceProcess" "readWord") (Exactly 1) [];
   (* 116 *) Call (TMethod "PtraceSyscall" "addArgument") (Exactly 0) ["value"; "name"; "type"];
   (* 119 *) Call (TMethod "PtraceSyscall" "addArgument") (Exactly 0) ["value"];
   (* 137 *) Call (TMethod "PtraceProcess" "getreg") (Exactly 1) [];
   (* 140 *) Call (TFun "ptrace.ctypes_tools.formatAddress") (Exactly 1) [];
   (* 143 *) Call (TFun "ptrace.ctypes_tools.uint2int32") (Exactly 1) [];
   (* 143 *) Call (TFun "ptrace.ctypes_tools.uint2int64") (Exactly 1) [];
   (* 149 *) Call (TFun "ptrace.ctypes_tools.formatUintHex32") (Exactly 1) [];
   (* 149 *) Call (TFun "ptrace.ctypes_tools.formatUintHex64") (Exactly 1) []].
(** ptrace/syscall/socketcall.py *)
Definition calls_ptrace_syscall_socketcall : list call :=
  [(* 21, 29 *) Call (TMethod "PtraceProcess" "readStruct") (Exactly 2) [];
   (* 22, 41 *) Call (TMethod "FunctionArgument" "formatPointer") (Exactly 2) [];
   (* 32, 34, 36, 39 *) Call (TMethod "FunctionArgument" "readStruct") (Exactly 2) [];
   (* 46 *) Call (TMethod "FunctionCall" "clearArguments") (Exactly 0) [];
   (* 51 *) Call (TMethod "FunctionArgument" "getText") (Exactly 0) [];
   (* 56 *) Call (TMethod "PtraceProcess" "readWord") (Exactly 1) [];
   (* 57 *) Call (TMethod "FunctionCall" "addArgument") (Exactly 3) [];
   (* 63, 69 *) Call (TFun "ptrace.ctypes_tools.ntoh_ushort") (Exactly 1) []].
(** ptrace/syscall/socketcall_struct.py *)
Definition calls_ptrace_syscall_socketcall_struct : list call :=
  [(* 43 *) Call (TFun "ptrace.ctypes_tools.ntoh_uint") (Exactly 1) [];
   (* 44 *) Call (TFun "ptrace.syscall.socketcall_struct.ip_int2str") (Exactly 1) [];
   (* 55 *) Call (TFun "ptrace.ctypes_tools.ntoh_ushort") (Exactly 1) []].
(** ptrace/syscall/syscall_argument.py *)
Definition calls_ptrace_syscall_syscall_argument : list call :=
  [(* 80, 152 *) Call (TFun "ptrace.ctypes_tools.formatUintHex32") (Exactly 1) [];
   (* 80, 152 *) Call (TFun "ptrace.ctypes_tools.formatUintHex64") (Exactly 1) [];
   (* 94 *) Call (TFun "ptrace.syscall.posix_arg.formatAccessMode") (Exactly 1) [];
   (* 94 *) Call (TFun "ptrace.syscall.posix_arg.formatOpenFlags") (Exactly 1) [];
   (* 94 *) Call (TFun "ptrace.syscall.posix_arg.formatOpenMode") (Exactly 1) [];
   (* 94 *) Call (TFun "ptrace.syscall.posix_arg.formatDirFd") (Exactly 1) [];
   (* 94 *) Call (TFun "ptrace.syscall.posix_arg.formatMmapProt") (Exactly 1) [];
   (* 94 *) Call (TFun "ptrace.syscall.posix_arg.formatCloneFlags") (Exactly 1) [];
   (* 94 *) Call (TFun "ptrace.syscall.socketcall_constants.formatSocketType") (Exactly 1) [];
   (* 94 *) Call (TFun "ptrace.syscall.socketcall.formatOptVal") (Exactly 1) [];
   (* 97 *) Call (TMethod "SyscallArgument" "readCStringArray") (Exactly 1) [];
   (* 105 *) Call (TNew "FunctionCall") (Exactly 2) [];
   (* 106 *) Call (TFun "ptrace.syscall.socketcall.setupSocketCall") (Exactly 4) [];
   (* 108 *) Call (TMethod "FunctionCall" "format") (Exactly 0) [];
   (* 109, 172, 180, 190, 210, 224, 242 *) Call (TMethod "SyscallArgument" "formatPointer") (Exactly 2) [];
   (* 114 *) Call (TMethod "SyscallArgument" "readString") (Exactly 2) [];
   (* 116, 188 *) Call (TFun "ptrace.signames.signalName") (Exactly 1) [];
   (* 123, 235 *) Call (TMethod "SyscallArgument" "readCString") (Exactly 1) [];
   (* 129 *) Call (TMethod "SyscallArgument" "formatValuePointer") (Exactly 1) [];
   (* 133 *) Call (TFun "ptrace.error.writeError") (Exactly 3) ["log_level"];
   (* 135 *) Call (TFun "ptrace.ctypes_tools.formatAddress") (Exactly 1) [];
   (* 143 *) Call (TMethod "SyscallArgument" "readArray") (Exactly 3) [];
   (* 149 *) Call (TFun "ptrace.ctypes_tools.uint2int32") (Exactly 1) [];
   (* 168 *) Call (TFun "ptrace.syscall.socketcall.formatSockaddr") (Exactly 2) [];
   (* 171 *) Call (TMethod "PtraceProcess" "readStruct") (Exactly 2) [];
   (* 175 *) Call (TMethod "SyscallArgument" "readStruct") (Exactly 2) [];
   (* 179 *) Call (TMethod "SyscallArgument" "readBits") (Exactly 2) [];
   (* 189 *) Call (TMethod "SyscallArgument" "readBits") (Exactly 2) ["format"];
   (* 194, 217 *) Call (TMethod "PtraceProcess" "readBytes") (Exactly 2) [];
   (* 195 *) Call (TFun "ptrace.syscall.syscall_argument.formatter") (Exactly 1) [];
   (* 196 *) Call (TFun "ptrace.syscall.syscall_argument.iterBits") (Exactly 1) [];
   (* 202 *) Call (TMethod "PtraceProcess" "readCString") (Exactly 2) [];
   (* 233 *) Call (TMethod "PtraceProcess" "readWord") (Exactly 1) [];
   (* 247 *) Call (TFun "ptrace.syscall.socketcall.formatSockaddrInStruct") (Exactly 3) [];
   (* 247 *) Call (TFun "ptrace.syscall.socketcall.formatSockaddrIn6Struct") (Exactly 3) []].
(** ptrace/terminal.py *)
Definition calls_ptrace_terminal : list call :=
  [(* 25 *) Call (TFun "ptrace.terminal._terminalSize") (Exactly 0) []].
(** ptrace/tools.py *)
Definition calls_ptrace_tools : list call :=
  [(* 18, 22 *) Call (TFun "ptrace.ctypes_tools.formatUintHex32") (Exactly 1) [];
   (* 20 *) Call (TFun "ptrace.ctypes_tools.formatUintHex16") (Exactly 1) [];
   (* 22 *) Call (TFun "ptrace.ctypes_tools.formatUintHex64") (Exactly 1) [];
   (* 68 *) Call (TFun "ptrace.tools.readBits") (Exactly 2) []].
(** gdb.py *)
Definition calls_gdb : list call :=
  [(* 48 *) Call (TFun "ptrace.tools.inverseDict") (Exactly 1) [];
   (* 118 *) Call (TFun "ptrace.ctypes_tools.word2bytes") (Exactly 1) [];
   (* 119, 283 *) Call (TFun "ptrace.debugger.memory_mapping.readProcessMappings") (Exactly 1) [];
   (* 121, 284 *) Call (TMethod "MemoryMapping" "search") (Exactly 1) [];
   (* 128 *) Call (TStatic "Application" "__init__") (Exactly 1) [];
   (* 131 *) Call (TMethod "Gdb" "parseOptions") (Exactly 0) [];
   (* 134 *) Call (TMethod "Gdb" "setupLog") (Exactly 0) [];
   (* 139 *) Call (TNew "FunctionCallOptions") (Exactly 0) ["write_types"; "write_argname"; "write_address"];
   (* 151 *) Call (TMethod "Gdb" "_setupLog") (Exactly 1) [];
   (* 156 *) Call (TMethod "Gdb" "createCommonOptions") (Exactly 1) [];
   (* 157 *) Call (TMethod "Gdb" "createLogOptions") (Exactly 1) [];
   (* 164 *) Call (TMethod "Gdb" "processOptions") (Exactly 0) [];
   (* 172 *) Call (TFun "ptrace.signames.signalName") (Exactly 1) [];
   (* 173 *) Call (TMethod "PtraceProcess" "cont") (Exactly 1) [];
   (* 179, 583 *) Call (TMethod "PtraceProcess" "cont") (Exactly 0) [];
   (* 183 *) Call (TMethod "SyscallState" "clear") (Exactly 0) [];
   (* 185 *) Call (TMethod "Gdb" "_continueProcess") (Exactly 2) [];
   (* 187 *) Call (TMethod "Gdb" "_continueProcess") (Exactly 1) [];
   (* 190 *) Call (TMethod "PtraceDebugger" "waitSignals") (Exactly 0) [];
   (* 195, 571 *) Call (TMethod "PtraceProcess" "getInstrPointer") (Exactly 0) [];
   (* 199, 722 *) Call (TMethod "PtraceProcess" "findBreakpoint") (Exactly 1) [];
   (* 202, 593 *) Call (TMethod "Breakpoint" "desinstall") (Exactly 0) ["set_ip"];
   (* 204, 837 *) Call (TMethod "Gdb" "processSignal") (Exactly 1) [];
   (* 209 *) Call (TMethod "PtraceProcess" "getreg") (Exactly 1) [];
   (* 247 *) Call (TFun "ptrace.ctypes_tools.truncateWord32") (Exactly 1) [];
   (* 247 *) Call (TFun "ptrace.ctypes_tools.truncateWord64") (Exactly 1) [];
   (* 251 *) Call (TMethod "PtraceProcess" "readWord") (Exactly 1) [];
   (* 258, 377, 398, 438, 439, 452, 537, 560, 630, 650, 702, 718 *) Call (TMethod "Gdb" "parseInteger") (Exactly 1) [];
   (* 274 *) Call (TMethod "Gdb" "parseBytes") (Exactly 1) [];
   (* 290 *) Call (TMethod "Gdb" "_xray") (Exactly 0) [];
   (* 291, 295, 431, 442, 479, 552, 575, 697, 712, 724 *) Call (TFun "ptrace.ctypes_tools.formatAddress") (Exactly 1) [];
   (* 292 *) Call (TFun "gdb.getPointers") (Exactly 2) [];
   (* 301 *) Call (TMethod "Gdb" "cont") (Exactly 0) [];
   (* 303 *) Call (TMethod "Gdb" "procInfo") (Exactly 0) [];
   (* 305 *) Call (TMethod "Gdb" "procList") (Exactly 0) [];
   (* 307 *) Call (TMethod "Gdb" "attachProcess") (Exactly 1) [];
   (* 309 *) Call (TMethod "PtraceProcess" "dumpRegs") (Exactly 0) [];
   (* 311 *) Call (TMethod "PtraceProcess" "dumpStack") (Exactly 0) [];
   (* 313 *) Call (TMethod "Gdb" "gcore") (Exactly 1) [];
   (* 315 *) Call (TMethod "Gdb" "backtrace") (Exactly 0) [];
   (* 317 *) Call (TMethod "Gdb" "where") (Exactly 1) [];
   (* 319 *) Call (TMethod "Gdb" "where") (Exactly 1) ["manage_bp"];
   (* 321 *) Call (TMethod "PtraceProcess" "dumpMaps") (Exactly 0) [];
   (* 323 *) Call (TMethod "Gdb" "debuggerInfo") (Exactly 0) [];
   (* 325, 327 *) Call (TMethod "Gdb" "step") (Exactly 1) [];
   (* 329 *) Call (TMethod "Gdb" "syscallTrace") (Exactly 0) [];
   (* 331 *) Call (TMethod "Gdb" "help") (Exactly 0) [];
   (* 333 *) Call (TMethod "Gdb" "set") (Exactly 1) [];
   (* 335 *) Call (TMethod "Gdb" "until") (Exactly 1) [];
   (* 337 *) Call (TMethod "Gdb" "switch") (Exactly 1) [];
   (* 339 *) Call (TMethod "Gdb" "breakpoint") (Exactly 1) [];
   (* 341 *) Call (TMethod "Gdb" "displayBreakpoints") (Exactly 0) [];
   (* 343 *) Call (TMethod "Gdb" "displaySignals") (Exactly 0) [];
   (* 345 *) Call (TMethod "Gdb" "delete") (Exactly 1) [];
   (* 347 *) Call (TMethod "Gdb" "hexdump") (Exactly 1) [];
   (* 349 *) Call (TMethod "Gdb" "signal") (Exactly 1) [];
   (* 351 *) Call (TMethod "Gdb" "print_") (Exactly 1) [];
   (* 353 *) Call (TMethod "Gdb" "addFollowTerm") (Exactly 1) [];
   (* 355 *) Call (TMethod "Gdb" "showFollowTerms") (Exactly 0) [];
   (* 359 *) Call (TMethod "Gdb" "xray") (Exactly 0) [];
   (* 383 *) Call (TMethod "Gdb" "parseSignum") (Exactly 1) [];
   (* 388 *) Call (TMethod "Gdb" "cont") (Exactly 1) [];
   (* 402 *) Call (TFun "ptrace.ctypes_tools.formatUintHex32") (Exactly 1) [];
   (* 402 *) Call (TFun "ptrace.ctypes_tools.formatUintHex64") (Exactly 1) [];
   (* 403 *) Call (TMethod "PtraceProcess" "readMappings") (Exactly 0) [];
   (* 431 *) Call (TFun "ptrace.terminal.terminalWidth") (Exactly 0) [];
   (* 463 *) Call (TMethod "PtraceProcess" "readBytes") (Exactly 2) [];
   (* 466 *) Call (TFun "gdb.formatHexa") (Exactly 1) [];
   (* 469 *) Call (TFun "gdb.formatAscii") (Exactly 1) [];
   (* 475, 490 *) Call (TFun "ptrace.ctypes_tools.formatAddressRange") (Exactly 2) [];
   (* 496 *) Call (TMethod "PtraceProcess" "getBacktrace") (Exactly 0) [];
   (* 507 *) Call (TMethod "Gdb" "parseIntegers") (Exactly 1) [];
   (* 514 *) Call (TMethod "PtraceProcess" "dumpCode") (Exactly 2) ["manage_bp"];
   (* 518 *) Call (TFun "ptrace.process_tools.dumpProcessInfo") (Exactly 2) ["max_length"];
   (* 541 *) Call (TMethod "PtraceProcess" "setreg") (Exactly 2) [];
   (* 550 *) Call (TMethod "PtraceProcess" "disassembleOne") (Exactly 0) [];
   (* 554 *) Call (TMethod "PtraceProcess" "dumpCode") (Exactly 0) [];
   (* 563 *) Call (TMethod "PtraceDebugger" "addProcess") (Exactly 2) [];
   (* 564, 647, 655, 669, 740, 746 *) Call (TMethod "Gdb" "switchProcess") (Exactly 1) [];
   (* 568, 636 *) Call (TMethod "Gdb" "displayInstr") (Exactly 1) [];
   (* 572 *) Call (TMethod "Gdb" "readInstrSize") (Exactly 1) ["default_size"];
   (* 577, 707 *) Call (TMethod "Gdb" "readInstrSize") (Exactly 1) [];
   (* 580, 709 *) Call (TMethod "PtraceProcess" "createBreakpoint") (Exactly 2) [];
   (* 586 *) Call (TMethod "PtraceProcess" "singleStep") (Exactly 0) [];
   (* 591, 770 *) Call (TMethod "PtraceProcess" "waitSignals") (Exactly 1) [];
   (* 596, 725 *) Call (TMethod "Breakpoint" "desinstall") (Exactly 0) [];
   (* 607 *) Call (TMethod "PtraceProcess" "syscall") (Exactly 0) [];
   (* 608 *) Call (TMethod "PtraceProcess" "waitSyscall") (Exactly 0) [];
   (* 612 *) Call (TMethod "SyscallState" "event") (Exactly 1) [];
   (* 617, 622 *) Call (TMethod "PtraceSyscall" "format") (Exactly 0) [];
   (* 633 *) Call (TMethod "Gdb" "step") (Exactly 2) [];
   (* 693 *) Call (TMethod "PtraceProcess" "disassembleOne") (Exactly 1) [];
   (* 739, 772 *) Call (TMethod "ProcessSignal" "display") (Exactly 0) [];
   (* 747, 800, 833 *) Call (TMethod "Gdb" "interrupt") (Exactly 0) [];
   (* 760 *) Call (TMethod "PtraceProcess" "isTraced") (Exactly 0) [];
   (* 765 *) Call (TMethod "PtraceProcess" "kill") (Exactly 1) [];
   (* 781 *) Call (TMethod "PtraceProcess" "processTerminated") (Exactly 0) [];
   (* 784, 840 *) Call (TMethod "Gdb" "nextProcess") (Exactly 0) [];
   (* 787 *) Call (TFun "ptrace.terminal.enableEchoMode") (Exactly 0) [];
   (* 793, 883 *) Call (TMethod "Gdb" "restoreTerminal") (Exactly 0) [];
   (* 823 *) Call (TMethod "Gdb" "execute") (Exactly 1) [];
   (* 835 *) Call (TMethod "Gdb" "newProcess") (Exactly 1) [];
   (* 842 *) Call (TMethod "Gdb" "processExecution") (Exactly 1) [];
   (* 846 *) Call (TMethod "Gdb" "deleteProcess") (Exactly 1) [];
   (* 850 *) Call (TMethod "Gdb" "setupDebugger") (Exactly 0) [];
   (* 854 *) Call (TMethod "Gdb" "createProcess") (Exactly 0) [];
   (* 856, 879 *) Call (TFun "ptrace.error.writeError") (Exactly 3) [];
   (* 868 *) Call (TMethod "Gdb" "mainLoop") (Exactly 0) [];
   (* 873 *) Call (TNew "PtraceDebugger") (Exactly 0) [];
   (* 875 *) Call (TMethod "Gdb" "runDebugger") (Exactly 0) [];
   (* 881 *) Call (TMethod "PtraceDebugger" "quit") (Exactly 0) [];
   (* 887 *) Call (TMethod "Gdb" "main") (Exactly 0) [];
   (* 887 *) Call (TNew "Gdb") (Exactly 0) []].
(** strace.py *)
Definition calls_strace : list call :=
  [(* 21 *) Call (TStatic "Application" "__init__") (Exactly 1) [];
   (* 24 *) Call (TMethod "SyscallTracer" "parseOptions") (Exactly 0) [];
   (* 27 *) Call (TMethod "SyscallTracer" "setupLog") (Exactly 0) [];
   (* 36 *) Call (TMethod "SyscallTracer" "_setupLog") (Exactly 1) [];
   (* 41 *) Call (TMethod "SyscallTracer" "createCommonOptions") (Exactly 1) [];
   (* 78 *) Call (TMethod "SyscallTracer" "createLogOptions") (Exactly 1) [];
   (* 135 *) Call (TMethod "SyscallTracer" "processOptions") (Exactly 0) [];
   (* 146 *) Call (TMethod "PtraceSyscall" "format") (Exactly 0) [];
   (* 153 *) Call (TFun "ptrace.ctypes_tools.formatAddress") (Exactly 1) [];
   (* 160, 218 *) Call (TMethod "SyscallTracer" "prepareProcess") (Exactly 1) [];
   (* 169 *) Call (TMethod "PtraceDebugger" "waitSyscall") (Exactly 0) [];
   (* 171, 261 *) Call (TMethod "SyscallTracer" "processExited") (Exactly 1) [];
   (* 176 *) Call (TMethod "ProcessSignal" "display") (Exactly 0) [];
   (* 177 *) Call (TMethod "PtraceProcess" "syscall") (Exactly 1) [];
   (* 178 *) Call (TFun "ptrace.tools.signal_to_exitcode") (Exactly 1) [];
   (* 181 *) Call (TMethod "SyscallTracer" "newProcess") (Exactly 1) [];
   (* 184 *) Call (TMethod "SyscallTracer" "processExecution") (Exactly 1) [];
   (* 188 *) Call (TMethod "SyscallTracer" "syscall") (Exactly 1) [];
   (* 193 *) Call (TMethod "SyscallState" "event") (Exactly 1) [];
   (* 195, 206 *) Call (TMethod "SyscallTracer" "displaySyscall") (Exactly 1) [];
   (* 198, 212, 219, 224 *) Call (TMethod "PtraceProcess" "syscall") (Exactly 0) [];
   (* 228 *) Call (TMethod "SyscallTracer" "setupDebugger") (Exactly 0) [];
   (* 229 *) Call (TMethod "SyscallTracer" "createProcess") (Exactly 0) [];
   (* 233 *) Call (TNew "FunctionCallOptions") (Exactly 0) ["write_types"; "write_argname"; "string_max_length"; "replace_socketcall"; "write_address"; "max_array_count"];
   (* 243 *) Call (TMethod "SyscallTracer" "syscallTrace") (Exactly 1) [];
   (* 250 *) Call (TMethod "SyscallTracer" "_main") (Exactly 0) [];
   (* 256 *) Call (TNew "PtraceDebugger") (Exactly 0) [];
   (* 259 *) Call (TMethod "SyscallTracer" "runDebugger") (Exactly 0) [];
   (* 272 *) Call (TFun "ptrace.error.writeError") (Exactly 3) [];
   (* 274 *) Call (TMethod "PtraceDebugger" "quit") (Exactly 0) [];
   (* 278 *) Call (TStatic "Application" "createChild") (Exactly 2) [];
   (* 285 *) Call (TMethod "SyscallTracer" "main") (Exactly 0) [];
   (* 285 *) Call (TNew "SyscallTracer") (Exactly 0) []].
(** runtests.py *)
Definition calls_runtests : list call :=
  [(* 108 *) Call (TFun "runtests.load_module") (Exactly 2) [];
   (* 124 *) Call (TMethod "TestsFinder" "find_available_tests") (Exactly 0) [];
   (* 131 *) Call (TFun "runtests.load_modules") (Exactly 1) [];
   (* 241 *) Call (TNew "TestsFinder") (Exactly 3) [];
   (* 258, 264 *) Call (TMethod "TestsFinder" "load_tests") (Exactly 0) [];
   (* 259, 265 *) Call (TMethod "TestRunner" "run") (Exactly 1) [];
   (* 281 *) Call (TFun "runtests.runtests") (Exactly 0) []].
(** test_doc.py *)
Definition calls_test_doc : list call :=
  [(* 26 *) Call (TFun "test_doc.importModule") (Exactly 1) [];
   (* 41, 42, 43, 44, 45, 46 *) Call (TFun "test_doc.testModule") (Exactly 1) [];
   (* 50 *) Call (TFun "test_doc.main") (Exactly 0) []].
(** setup_cptrace.py *)
Definition calls_setup_cptrace : list call :=
  [(* 54 *) Call (TFun "setup_cptrace.main") (Exactly 0) []].
(** examples/itrace.py *)
Definition calls_examples_itrace : list call :=
  [(* 26 *) Call (TSuper "SyscallTracer" "createCommonOptions") (Exactly 1) [];
   (* 34 *) Call (TMethod "PtraceProcess" "syscall") (Exactly 0) [];
   (* 35 *) Call (TMethod "PtraceDebugger" "waitSyscall") (Exactly 0) [];
   (* 38 *) Call (TMethod "PtraceProcess" "getInstrPointer") (Exactly 0) [];
   (* 41 *) Call (TMethod "PtraceProcess" "singleStep") (Exactly 0) [];
   (* 42 *) Call (TMethod "PtraceDebugger" "waitProcessEvent") (Exactly 0) [];
   (* 52 *) Call (TMethod "Tracer" "main") (Exactly 0) [];
   (* 52 *) Call (TNew "Tracer") (Exactly 0) []].
(** examples/simple_dbg.py *)
Definition calls_examples_simple_dbg : list call :=
  [(* 10 *) Call (TMethod "PtraceProcess" "dumpRegs") (Exactly 0) [];
   (* 12 *) Call (TMethod "PtraceProcess" "cont") (Exactly 0) [];
   (* 14 *) Call (TMethod "PtraceProcess" "waitEvent") (Exactly 0) [];
   (* 22 *) Call (TFun "ptrace.tools.locateProgram") (Exactly 1) [];
   (* 25 *) Call (TFun "ptrace.debugger.child.createChild") (Exactly 3) [];
   (* 48 *) Call (TFun "examples.simple_dbg.traceProgram") (Exactly 1) [];
   (* 52 *) Call (TNew "PtraceDebugger") (Exactly 0) [];
   (* 53 *) Call (TMethod "PtraceDebugger" "addProcess") (Exactly 2) [];
   (* 56 *) Call (TFun "examples.simple_dbg.playWithProcess") (Exactly 1) [];
   (* 57 *) Call (TMethod "PtraceDebugger" "quit") (Exactly 0) [];
   (* 60 *) Call (TFun "examples.simple_dbg.main") (Exactly 0) []].
(** tests/test_gdb.py *)
Definition calls_tests_test_gdb : list call :=
  [(* 40, 52, 56, 61, 65, 68, 72 *) Call (TMethod "TestGdb" "run_command") (Exactly 1) [];
   (* 53, 57, 69, 73, 74, 75 *) Call (TMethod "TestGdb" "check_stdout") (Exactly 2) []].
(** tests/test_strace.py *)
Definition calls_tests_test_strace : list call :=
  [(* 39, 44, 51, 56, 61 *) Call (TMethod "TestStrace" "strace") (Exactly 3) [];
   (* 71, 75, 84, 91, 99, 108 *) Call (TMethod "TestStrace" "assert_syscall") (Exactly 2) []].
Definition calls : list call := calls_ptrace_binding_func ++ calls_ptrace_ctypes_tools ++ calls_ptrace_debugger_application ++ calls_ptrace_debugger_backtrace ++ calls_ptrace_debugger_breakpoint ++ calls_ptrace_debugger_child ++ calls_ptrace_debugger_debugger ++ calls_ptrace_debugger_memory_mapping ++ calls_ptrace_debugger_parse_expr ++ calls_ptrace_debugger_process ++ calls_ptrace_debugger_process_error ++ calls_ptrace_debugger_process_event ++ calls_ptrace_debugger_ptrace_signal ++ calls_ptrace_debugger_signal_reason ++ calls_ptrace_debugger_syscall_state ++ calls_ptrace_disasm ++ calls_ptrace_error ++ calls_ptrace_func_arg ++ calls_ptrace_func_call ++ calls_ptrace_linux_proc ++ calls_ptrace_logging_tools ++ calls_ptrace_process_tools ++ calls_ptrace_profiler ++ calls_ptrace_signames ++ calls_ptrace_syscall_posix_arg ++ calls_ptrace_syscall_ptrace_syscall ++ calls_ptrace_syscall_socketcall ++ calls_ptrace_syscall_socketcall_struct ++ calls_ptrace_syscall_syscall_argument ++ calls_ptrace_terminal ++ calls_ptrace_tools ++ calls_gdb ++ calls_strace ++ calls_runtests ++ calls_test_doc ++ calls_setup_cptrace ++ calls_examples_itrace ++ calls_examples_simple_dbg ++ calls_tests_test_gdb ++ calls_tests_test_strace.
