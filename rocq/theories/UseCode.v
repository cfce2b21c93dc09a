(** * UseCode: the global names that the functions and methods of the modules read.
    For every function (those defined inside another belong to it): the conditions around its definition, then its reads in the order of the source.
    Conditions on flags of the platform are kept, of every other statement all parts are taken as read; what follows a branch that returns or raises
    (self.notImplementedError() included) is in the other branch.  Builtins are left out, as in ImpCode.v. *)
From Coq Require Import List Bool.
From Verif Require Import Platform ImpNames ImpModel UseModel.
Import ListNotations.
Open Scope name_scope.

(** ptrace/ctypes_tools.py *)
Definition f_ptrace_ctypes_tools : list fbody :=
  [(* 6-19 *) Body "int2uint64" false [] [];
   (* 22-39 *) Body "uint2int64" false [] [];
   (* 42-46 *) Body "truncateWord32" false [] [];
   (* 49-53 *) Body "truncateWord64" false [] [];
   (* 56-60 *) Body "formatUintHex16" false [] [];
   (* 63-67 *) Body "formatUintHex32" false [] [];
   (* 70-74 *) Body "formatUintHex64" false [] [];
   (* 77-88 *) Body "int2uint32" false [] [];
   (* 91-111 *) Body "uint2int32" false [] [];
   (* 128-136 *) Body "formatAddress" false [] [FReads ["formatWordHex"]];
   (* 139-143 *) Body "formatAddressRange" false [] [FReads ["formatWordHex"]];
   (* 146-150 *) Body "ntoh_ushort" false [] [FReads ["unpack"; "pack"]];
   (* 153-157 *) Body "ntoh_uint" false [] [FReads ["unpack"; "pack"]];
   (* 160-164 *) Body "word2bytes" false [] [FReads ["pack"]];
   (* 167-171 *) Body "bytes2word" false [] [FReads ["unpack"]];
   (* 174-178 *) Body "bytes2type" false [] [FReads ["cast"; "POINTER"]];
   (* 181-186 *) Body "bytes2array" false [] [FReads ["bytes2type"]]].
(** ptrace/disasm.py *)
Definition f_ptrace_disasm : list fbody :=
  [(* 44-51 *) Body "Instruction.__init__" true [BName "HAS_DISASSEMBLER"] [FReads ["DISTORM3"]];
   (* 53-54 *) Body "Instruction.__str__" true [BName "HAS_DISASSEMBLER"] [];
   (* 56-62 *) Body "disassemble" false [BName "HAS_DISASSEMBLER"] [FReads ["Decode"; "DecodeBits"; "Instruction"]];
   (* 64-71 *) Body "disassembleOne" false [BName "HAS_DISASSEMBLER"] [FReads ["disassemble"; "PtraceError"]]].
(** ptrace/error.py *)
Definition f_ptrace_error : list fbody :=
  [(* 9-24 *) Body "writeBacktrace" false [] [FReads ["getLogFunc"; "exc_info"; "format_exception"]];
   (* 27-32 *) Body "formatError" false [] [];
   (* 35-52 *) Body "writeError" false [] [FReads ["getLogger"; "getLogFunc"; "formatError"; "writeBacktrace"; "changeLogLevel"]];
   (* 60-63 *) Body "PtraceError.__init__" true [] []].
(** ptrace/func_arg.py *)
Definition f_ptrace_func_arg : list fbody :=
  [(* 20-28 *) Body "FunctionArgument.__init__" true [] [];
   (* 30-45 *) Body "FunctionArgument.getText" true [] [FReads ["PTRACE_ERRORS"; "writeError"; "formatAddress"; "getLogger"]];
   (* 47-58 *) Body "FunctionArgument.format" true [] [];
   (* 60-61 *) Body "FunctionArgument.createText" true [] [];
   (* 63-67 *) Body "FunctionArgument.formatPointer" true [] [FReads ["formatAddress"]];
   (* 69-89 *) Body "FunctionArgument.readStruct" true [] [FReads ["PTRACE_ERRORS"; "writeError"; "getLogger"]];
   (* 91-92 *) Body "FunctionArgument.formatStructValue" true [] [];
   (* 94-102 *) Body "FunctionArgument.readArray" true [] [];
   (* 104-105 *) Body "FunctionArgument.__repr__" true [] []].
(** ptrace/func_call.py *)
Definition f_ptrace_func_call : list fbody :=
  [(* 9-19 *) Body "FunctionCallOptions.__init__" true [] [];
   (* 37-43 *) Body "FunctionCall.__init__" true [] [];
   (* 45-48 *) Body "FunctionCall.addArgument" true [] [];
   (* 50-51 *) Body "FunctionCall.clearArguments" true [] [];
   (* 53-61 *) Body "FunctionCall.__getitem__" true [] [];
   (* 63-74 *) Body "FunctionCall.format" true [] [];
   (* 76-77 *) Body "FunctionCall.__repr__" true [] []].
(** ptrace/linux_proc.py *)
Definition f_ptrace_linux_proc : list fbody :=
  [(* 23-31 *) Body "openProc" false [] [FReads ["ProcError"]];
   (* 34-40 *) Body "readProc" false [] [FReads ["openProc"]];
   (* 43-53 *) Body "readProcessProc" false [] [FReads ["ProcError"]];
   (* 80-99 *) Body "ProcessState.__init__" true [] [];
   (* 102-107 *) Body "readProcessStat" false [] [FReads ["readProcessProc"; "ProcessState"]];
   (* 110-117 *) Body "readProcessStatm" false [] [FReads ["readProcessProc"; "PAGE_SIZE"]];
   (* 120-131 *) Body "readProcessProcList" false [] [FReads ["readProcessProc"]];
   (* 134-142 *) Body "readProcessLink" false [] [FReads ["readlink"; "ProcError"]];
   (* 145-157 *) Body "readProcesses" false [] [FReads ["listdir"]];
   (* 160-181 *) Body "readProcessCmdline" false [] [FReads ["ProcError"; "readProcessProcList"; "readProcessStat"]];
   (* 184-202 *) Body "searchProcessesByName" false [] [FReads ["readProcesses"; "readProcessCmdline"]];
   (* 205-213 *) Body "searchProcessByName" false [] [FReads ["searchProcessesByName"; "ProcError"]];
   (* 216-223 *) Body "getUptime" false [] [FReads ["readProc"; "timedelta"]];
   (* 226-242 *) Body "getSystemBoot" false [] [FReads ["getSystemBoot"; "openProc"; "timestampUNIX"; "ProcError"]]].
(** ptrace/logging_tools.py *)
Definition f_ptrace_logging_tools : list fbody :=
  [(* 5-18 *) Body "getLogFunc" false [] [FReads ["ERROR"; "WARNING"; "INFO"; "DEBUG"]];
   (* 21-30 *) Body "changeLogLevel" false [] [FReads ["minmax"; "DEBUG"; "ERROR"]]].
(** ptrace/mockup.py *)
Definition f_ptrace_mockup : list fbody :=
  [(* 8-9 *) Body "FakeProcess.__init__" true [] [];
   (* 11-12 *) Body "FakeProcess.setreg" true [] [];
   (* 14-15 *) Body "FakeProcess.getreg" true [] []].
(** ptrace/process_tools.py *)
Definition f_ptrace_process_tools : list fbody :=
  [(* 21-103 *) Body "dumpProcessInfo" false [] [FIf (BNot (BName "RUNNING_LINUX")) [] [FReads ["ProcError"; "readProcessStat"; "readProcessProcList"; "readProcessLink"; "openProc"]]];
   (* 106-124 *) Body "formatProcessStatus" false [] [FReads ["WIFSTOPPED"; "WSTOPSIG"; "WIFSIGNALED"; "WTERMSIG"; "WEXITSTATUS"; "signalName"; "WCOREDUMP"]]].
(** ptrace/profiler.py *)
Definition f_ptrace_profiler : list fbody :=
  [(* 7-16 *) Body "calibrate" false [] [FReads ["Profile"]];
   (* 19-45 *) Body "runProfiler" false [] [FReads ["Profile"; "calibrate"; "StringIO"; "unlink"; "pstats"]]].
(** ptrace/pydistorm.py *)
Definition f_ptrace_pydistorm : list fbody :=
  [(* 56-58 *) Body "_WString.__str__" true [] [];
   (* 70-71 *) Body "_DecodedInst.__str__" true [] [];
   (* 78-127 *) Body "Decode" false [] [FReads ["DECODERS"; "create_string_buffer"; "c_uint"; "MAX_INSTRUCTIONS"; "sizeof"; "_DecodedInst"; "addressof"; "internal_decode"; "DECRES_INPUTERR"; "cast"; "byref"; "DECRES_MEMORYERR"; "POINTER"]]].
(** ptrace/signames.py *)
Definition f_ptrace_signames : list fbody :=
  [(* 12-41 *) Body "getSignalNames" false [] [FReads ["PREFERRED_NAMES"]];
   (* 47-60 *) Body "signalName" false [] [FReads ["SIGNAMES"]]].
(** ptrace/terminal.py *)
Definition f_ptrace_terminal : list fbody :=
  [(* 14-18 *) Body "_terminalSize" false [] [FReads ["stdout"; "ioctl"; "TIOCGWINSZ"; "unpack"]];
   (* 21-25 *) Body "terminalWidth" false [] [FReads ["_terminalSize"]];
   (* 28-41 *) Body "enableEchoMode" false [] [FReads ["stdin"; "os"; "tcgetattr"; "ECHO"; "TERMIO_LFLAGS"; "tcsetattr"; "TCSADRAIN"]]].
(** ptrace/tools.py *)
Definition f_ptrace_tools : list fbody :=
  [(* 8-23 *) Body "dumpRegs" false [] [FReads ["sizeof"; "formatUintHex32"; "formatUintHex16"; "formatWordHex"]];
   (* 26-49 *) Body "readBits" false [] [];
   (* 52-78 *) Body "formatBits" false [] [FReads ["readBits"]];
   (* 88-104 *) Body "timestampUNIX" false [] [FReads ["UNIX_TIMESTAMP_T0"; "timedelta"; "LOCAL_TIMEZONE_OFFSET"]];
   (* 107-128 *) Body "locateProgram" false [] [FReads ["isabs"; "dirname"; "path_join"; "normpath"; "getcwd"; "getenv"; "pathsep"; "access"; "X_OK"]];
   (* 131-142 *) Body "minmax" false [] [];
   (* 145-155 *) Body "inverseDict" false [] [];
   (* 158-167 *) Body "signal_to_exitcode" false [] []].
(** ptrace/binding/func.py *)
Definition f_ptrace_binding_func : list fbody :=
  [(* 147-169 *) Body "ptrace" false [] [FIf (BName "HAS_CPTRACE") [FReads ["set_errno"; "_ptrace"; "get_errno"; "PtraceError"]] [FReads ["_ptrace"; "c_long"; "get_errno"; "PtraceError"; "strerror"]]];
   (* 172-173 *) Body "ptrace_traceme" false [] [FReads ["ptrace"; "PTRACE_TRACEME"]];
   (* 176-177 *) Body "ptrace_attach" false [] [FReads ["ptrace"; "PTRACE_ATTACH"]];
   (* 180-181 *) Body "ptrace_detach" false [] [FReads ["ptrace"; "PTRACE_DETACH"]];
   (* 184-189 *) Body "_peek" false [] [FReads ["CPU_WORD_SIZE"; "PtraceError"; "formatAddress"; "ptrace"]];
   (* 192-197 *) Body "_poke" false [] [FReads ["CPU_WORD_SIZE"; "PtraceError"; "formatAddress"; "ptrace"]];
   (* 200-201 *) Body "ptrace_peektext" false [] [FReads ["_peek"; "PTRACE_PEEKTEXT"]];
   (* 204-205 *) Body "ptrace_peekdata" false [] [FReads ["_peek"; "PTRACE_PEEKDATA"]];
   (* 208-209 *) Body "ptrace_peekuser" false [] [FReads ["_peek"; "PTRACE_PEEKUSER"]];
   (* 212-213 *) Body "ptrace_poketext" false [] [FReads ["_poke"; "PTRACE_POKETEXT"]];
   (* 216-217 *) Body "ptrace_pokedata" false [] [FReads ["_poke"; "PTRACE_POKEDATA"]];
   (* 220-221 *) Body "ptrace_pokeuser" false [] [FReads ["_poke"; "PTRACE_POKEUSER"]];
   (* 224-225 *) Body "ptrace_kill" false [] [FReads ["ptrace"; "PTRACE_KILL"]];
   (* 229-230 *) Body "WPTRACEEVENT" false [BName "HAS_PTRACE_EVENTS"] [];
   (* 232-233 *) Body "ptrace_setoptions" false [BName "HAS_PTRACE_EVENTS"] [FReads ["ptrace"; "PTRACE_SETOPTIONS"]];
   (* 235-238 *) Body "ptrace_geteventmsg" false [BName "HAS_PTRACE_EVENTS"] [FReads ["pid_t"; "ptrace"; "PTRACE_GETEVENTMSG"; "addressof"]];
   (* 241-242 *) Body "ptrace_syscall" false [BName "RUNNING_LINUX"] [FReads ["ptrace"; "PTRACE_SYSCALL"]];
   (* 244-245 *) Body "ptrace_cont" false [BName "RUNNING_LINUX"] [FReads ["ptrace"; "PTRACE_CONT"]];
   (* 247-250 *) Body "ptrace_getsiginfo" false [BName "RUNNING_LINUX"] [FReads ["siginfo"; "ptrace"; "PTRACE_GETSIGINFO"; "addressof"]];
   (* 252-253 *) Body "ptrace_setsiginfo" false [BName "RUNNING_LINUX"] [FReads ["ptrace"; "PTRACE_SETSIGINFO"; "addressof"]];
   (* 255-258 *) Body "ptrace_getfpregs" false [BName "RUNNING_LINUX"] [FReads ["user_fpregs_struct"; "ptrace"; "PTRACE_GETFPREGS"; "addressof"]];
   (* 260-261 *) Body "ptrace_setfpregs" false [BName "RUNNING_LINUX"] [FReads ["ptrace"; "PTRACE_SETFPREGS"; "addressof"]];
   (* 264-267 *) Body "ptrace_getfpxregs" false [BName "RUNNING_LINUX"; BNot (BName "CPU_64BITS")] [FReads ["user_fpxregs_struct"; "ptrace"; "PTRACE_GETFPXREGS"; "addressof"]];
   (* 269-270 *) Body "ptrace_setfpxregs" false [BName "RUNNING_LINUX"; BNot (BName "CPU_64BITS")] [FReads ["ptrace"; "PTRACE_SETFPXREGS"; "addressof"]];
   (* 273-276 *) Body "ptrace_getregs" false [BName "RUNNING_LINUX"; BName "HAS_PTRACE_GETREGS"] [FReads ["ptrace_registers_t"; "ptrace"; "PTRACE_GETREGS"; "addressof"]];
   (* 279-285 *) Body "ptrace_getregs" false [BName "RUNNING_LINUX"; BNot (BName "HAS_PTRACE_GETREGS"); BName "HAS_PTRACE_GETREGSET"] [FReads ["ptrace_registers_t"; "iovec_struct"; "addressof"; "sizeof"; "ptrace"; "PTRACE_GETREGSET"; "NT_PRSTATUS"]];
   (* 288-289 *) Body "ptrace_setregs" false [BName "RUNNING_LINUX"; BName "HAS_PTRACE_SETREGS"] [FReads ["ptrace"; "PTRACE_SETREGS"; "addressof"]];
   (* 292-296 *) Body "ptrace_setregs" false [BName "RUNNING_LINUX"; BNot (BName "HAS_PTRACE_SETREGS"); BName "HAS_PTRACE_SETREGSET"] [FReads ["iovec_struct"; "addressof"; "sizeof"; "ptrace"; "PTRACE_SETREGSET"; "NT_PRSTATUS"]];
   (* 299-300 *) Body "ptrace_singlestep" false [BName "RUNNING_LINUX"; BName "HAS_PTRACE_SINGLESTEP"] [FReads ["ptrace"; "PTRACE_SINGLESTEP"]];
   (* 303-304 *) Body "ptrace_syscall" false [BNot (BName "RUNNING_LINUX")] [FReads ["ptrace"; "PTRACE_SYSCALL"]];
   (* 306-307 *) Body "ptrace_cont" false [BNot (BName "RUNNING_LINUX")] [FReads ["ptrace"; "PTRACE_CONT"]];
   (* 310-313 *) Body "ptrace_getregs" false [BNot (BName "RUNNING_LINUX"); BName "HAS_PTRACE_GETREGS"] [FReads ["ptrace_registers_t"; "ptrace"; "PTRACE_GETREGS"; "addressof"]];
   (* 315-316 *) Body "ptrace_setregs" false [BNot (BName "RUNNING_LINUX")] [FReads ["ptrace"; "PTRACE_SETREGS"; "addressof"]];
   (* 319-320 *) Body "ptrace_singlestep" false [BNot (BName "RUNNING_LINUX"); BName "HAS_PTRACE_SINGLESTEP"] [FReads ["ptrace"; "PTRACE_SINGLESTEP"]];
   (* 323-324 *) Body "ptrace_io" false [BName "HAS_PTRACE_IO"] [FReads ["ptrace"; "PTRACE_IO"; "addressof"]]].
(** ptrace/binding/linux_struct.py *)
Definition f_ptrace_binding_linux_struct : list fbody :=
  [(* 16-20 *) Body "register_structure.__str__" true [] []].
(** ptrace/debugger/application.py *)
Definition f_ptrace_debugger_application : list fbody :=
  [(* 15-16 *) Body "Application.__init__" true [] [];
   (* 18-30 *) Body "Application._setupLog" true [] [FReads ["getLogger"; "StreamHandler"; "DEBUG"; "INFO"; "ERROR"; "WARNING"]];
   (* 32-34 *) Body "Application.processOptions" true [] [FReads ["locateProgram"]];
   (* 36-44 *) Body "Application.createLogOptions" true [] [FReads ["OptionGroup"]];
   (* 46-47 *) Body "Application.createChild" true [] [FReads ["createChild"]];
   (* 49-60 *) Body "Application.setupDebugger" true [] [FReads ["DebuggerError"; "error"]];
   (* 62-79 *) Body "Application.createProcess" true [] [FReads ["error"; "ProcessExit"; "PtraceError"; "EPERM"]];
   (* 81-91 *) Body "Application.createCommonOptions" true [] []].
(** ptrace/debugger/backtrace.py *)
Definition f_ptrace_debugger_backtrace : list fbody :=
  [(* 16-19 *) Body "BacktraceFrame.__init__" true [] [];
   (* 21-23 *) Body "BacktraceFrame.__str__" true [] [FReads ["formatWordHex"; "formatAddress"]];
   (* 31-33 *) Body "Backtrace.__init__" true [] [];
   (* 35-36 *) Body "Backtrace.append" true [] [];
   (* 38-39 *) Body "Backtrace.__iter__" true [] [];
   (* 41-42 *) Body "Backtrace.__len__" true [] [];
   (* 45-93 *) Body "getBacktrace" false [] [FReads ["Backtrace"; "PtraceError"; "getBacktraceFrame"; "CPU_MAX_UINT"; "CPU_WORD_SIZE"]];
   (* 96-115 *) Body "getBacktraceFrame" false [] [FReads ["BacktraceFrame"; "CPU_WORD_SIZE"; "PtraceError"]]].
(** ptrace/debugger/breakpoint.py *)
Definition f_ptrace_debugger_breakpoint : list fbody :=
  [(* 16-37 *) Body "Breakpoint.__init__" true [] [FReads ["ref"]; FIf (BName "CPU_POWERPC") [FReads ["CPU_WORD_SIZE"]] []; FReads ["info"]; FIf (BName "CPU_POWERPC") [FReads ["word2bytes"]] []];
   (* 39-55 *) Body "Breakpoint.desinstall" true [] [FReads ["info"]];
   (* 57-60 *) Body "Breakpoint.__str__" true [] [FReads ["formatAddress"]];
   (* 62-66 *) Body "Breakpoint.__del__" true [] [FReads ["PtraceError"]]].
(** ptrace/debugger/child.py *)
Definition f_ptrace_debugger_child : list fbody :=
  [(* 31-38 *) Body "_set_cloexec_flag" false [] [FReads ["fcntl"]];
   (* 41-50 *) Body "_waitpid_no_intr" false [] [FReads ["waitpid"; "EINTR"]];
   (* 53-62 *) Body "_read_no_intr" false [] [FReads ["read"; "EINTR"]];
   (* 65-74 *) Body "_write_no_intr" false [] [FReads ["write"; "EINTR"]];
   (* 77-84 *) Body "_createParent" false [] [FReads ["_read_no_intr"; "close"; "_waitpid_no_intr"; "pickle"]];
   (* 87-120 *) Body "_createChild" false [] [FReads ["PtraceError"; "ptrace_traceme"; "ChildError"; "set_inheritable"; "MAXFD"; "close"; "_execChild"; "exc_info"; "format_exception"; "_write_no_intr"; "pickle"]];
   (* 123-139 *) Body "_execChild" false [] [FReads ["devnull"; "dup2"; "close"; "execvpe"; "execvp"; "ChildError"]];
   (* 142-173 *) Body "createChild" false [] [FReads ["pipe"; "_set_cloexec_flag"; "fork"; "close"; "_createParent"; "_createChild"]]].
(** ptrace/debugger/debugger.py *)
Definition f_ptrace_debugger_debugger : list fbody :=
  [(* 64-72 *) Body "PtraceDebugger.__init__" true [] [];
   (* 74-102 *) Body "PtraceDebugger.addProcess" true [] [FReads ["PtraceProcess"; "info"; "ProcessSignal"; "SIGTRAP"; "SIGSTOP"; "error"]; FIf (BName "HAS_PTRACE_EVENTS") [] []];
   (* 104-114 *) Body "PtraceDebugger.quit" true [] [FReads ["info"]];
   (* 116-142 *) Body "PtraceDebugger._waitpid" true [] [FReads ["WNOHANG"; "THREAD_TRACE_FLAGS"; "waitpid"; "DebuggerError"]];
   (* 144-166 *) Body "PtraceDebugger._wait_event_pid" true [] [FReads ["ECHILD"; "warning"]];
   (* 168-185 *) Body "PtraceDebugger._wait_event" true [] [FReads ["sleep"]];
   (* 187-193 *) Body "PtraceDebugger.waitProcessEvent" true [] [];
   (* 195-209 *) Body "PtraceDebugger.waitSignals" true [] [FReads ["ProcessSignal"]];
   (* 211-223 *) Body "PtraceDebugger.waitSyscall" true [] [FReads ["SIGTRAP"]];
   (* 225-241 *) Body "PtraceDebugger.deleteProcess" true [] [];
   (* 243-252 *) Body "PtraceDebugger.traceFork" true [] [FIf (BNot (BName "HAS_PTRACE_EVENTS")) [FReads ["DebuggerError"]] [FReads ["PTRACE_O_TRACEFORK"; "PTRACE_O_TRACEVFORK"; "info"]]];
   (* 254-262 *) Body "PtraceDebugger.traceExec" true [] [FIf (BNot (BName "HAS_PTRACE_EVENTS")) [] [FReads ["PTRACE_O_TRACEEXEC"]]];
   (* 264-272 *) Body "PtraceDebugger.traceClone" true [] [FIf (BNot (BName "HAS_PTRACE_EVENTS")) [] [FReads ["PTRACE_O_TRACECLONE"]]];
   (* 274-284 *) Body "PtraceDebugger.enableSysgood" true [] [FIf (BNot (BName "HAS_PTRACE_EVENTS")) [] [FReads ["PTRACE_O_TRACESYSGOOD"]]];
   (* 286-287 *) Body "PtraceDebugger.__getitem__" true [] [];
   (* 289-290 *) Body "PtraceDebugger.__iter__" true [] [];
   (* 292-293 *) Body "PtraceDebugger.__len__" true [] []].
(** ptrace/debugger/memory_mapping.py *)
Definition f_ptrace_debugger_memory_mapping : list fbody :=
  [(* 47-56 *) Body "MemoryMapping.__init__" true [] [FReads ["ref"]];
   (* 58-59 *) Body "MemoryMapping.__contains__" true [] [];
   (* 61-66 *) Body "MemoryMapping.__str__" true [] [FReads ["formatAddress"]];
   (* 69-100 *) Body "MemoryMapping.search" true [] [];
   (* 103-139 *) Body "readProcessMappings" false [] [FIf (BNot (BName "HAS_PROC")) [] [FReads ["ProcError"; "openProc"; "ProcessError"; "MemoryMapping"; "PROC_MAP_REGEX"]]]].
(** ptrace/debugger/parse_expr.py *)
Definition f_ptrace_debugger_parse_expr : list fbody :=
  [(* 16-27 *) Body "replaceHexadecimal" false [] [FReads ["re"]];
   (* 30-76 *) Body "parseExpression" false [] [FReads ["replaceHexadecimal"; "HEXADECIMAL_REGEX"; "REGISTER_REGEX"; "EXPR_REGEX"]]].
(** ptrace/debugger/process.py *)
Definition f_ptrace_debugger_process : list fbody :=
  [(* 160-177 *) Body "PtraceProcess.__init__" true [] [FIf (BName "HAS_PROC") [] []; FReads ["SyscallState"]];
   (* 179-183 *) Body "PtraceProcess.isTraced" true [] [FIf (BNot (BName "HAS_PROC")) [] [FReads ["readProcessStat"]]];
   (* 185-190 *) Body "PtraceProcess.attach" true [] [FReads ["info"; "ptrace_attach"]];
   (* 192-209 *) Body "PtraceProcess.dumpCode" true [] [FReads ["error"; "PtraceError"; "formatAddress"]];
   (* 211-256 *) Body "PtraceProcess._dumpCode" true [] [FReads ["MAX_CODE_SIZE"]; FIf (BNot (BName "HAS_DISASSEMBLER")) [FReads ["MIN_CODE_SIZE"; "RUNNING_PYTHON3"]] [FReads ["disassembleOne"; "formatAddress"]]];
   (* 258-275 *) Body "PtraceProcess.disassemble" true [] [FIf (BNot (BName "HAS_DISASSEMBLER")) [] [FReads ["DEFAULT_NB_INSTR"; "MAX_INSTR_SIZE"; "disassemble"]]];
   (* 277-283 *) Body "PtraceProcess.disassembleOne" true [] [FIf (BNot (BName "HAS_DISASSEMBLER")) [] [FReads ["MAX_INSTR_SIZE"; "disassembleOne"]]];
   (* 285-289 *) Body "PtraceProcess.findStack" true [] [];
   (* 291-298 *) Body "PtraceProcess.detach" true [] [FReads ["info"; "ptrace_detach"]];
   (* 300-307 *) Body "PtraceProcess._notRunning" true [] [FIf (BName "HAS_PROC") [] []];
   (* 309-310 *) Body "PtraceProcess.kill" true [] [FReads ["kill"]];
   (* 312-332 *) Body "PtraceProcess.terminate" true [] [FReads ["warning"; "PtraceError"; "SIGKILL"; "ESRCH"]];
   (* 334-353 *) Body "PtraceProcess.waitExit" true [] [FReads ["ProcessExit"; "ProcessSignal"; "SIGTRAP"; "SIGSTOP"]];
   (* 355-378 *) Body "PtraceProcess.processStatus" true [] [FReads ["WIFEXITED"; "WEXITSTATUS"; "WIFSIGNALED"; "WTERMSIG"; "WIFSTOPPED"; "ProcessError"]; FIf (BName "HAS_PTRACE_EVENTS") [FReads ["WPTRACEEVENT"; "WSTOPSIG"]] [FReads ["WSTOPSIG"]]];
   (* 380-382 *) Body "PtraceProcess.processTerminated" true [] [FReads ["ProcessExit"]];
   (* 384-391 *) Body "PtraceProcess.processExited" true [] [FIf (BName "RUNNING_BSD") [] []; FReads ["ProcessExit"]];
   (* 393-395 *) Body "PtraceProcess.processKilled" true [] [FReads ["ProcessExit"]];
   (* 397-399 *) Body "PtraceProcess.processSignal" true [] [FReads ["ProcessSignal"]];
   (* 401-413 *) Body "PtraceProcess.ptraceEvent" true [] [FIf (BNot (BName "HAS_PTRACE_EVENTS")) [] [FReads ["NEW_PROCESS_EVENT"; "ptrace_geteventmsg"; "PTRACE_EVENT_CLONE"; "NewProcessEvent"; "PTRACE_EVENT_EXEC"; "ProcessExecution"; "ProcessError"]]];
   (* 415-427 *) Body "PtraceProcess.getregs" true [] [FIf (BOr (BName "HAS_PTRACE_GETREGS") (BName "HAS_PTRACE_GETREGSET")) [FReads ["ptrace_getregs"]] [FReads ["CPU_WORD_SIZE"; "sizeof"; "ptrace_registers_t"; "ptrace_peekuser"; "word2bytes"; "bytes2type"]]];
   (* 429-442 *) Body "PtraceProcess.getreg" true [] [FReads ["CPU_SUB_REGISTERS"; "REGISTER_NAMES"; "ProcessError"]];
   (* 444-445 *) Body "PtraceProcess.setregs" true [] [FReads ["ptrace_setregs"]];
   (* 447-459 *) Body "PtraceProcess.setreg" true [] [FReads ["CPU_SUB_REGISTERS"; "REGISTER_NAMES"; "ProcessError"]];
   (* 461-464 *) Body "PtraceProcess.singleStep" true [] [FIf (BNot (BName "HAS_PTRACE_SINGLESTEP")) [] [FReads ["ptrace_singlestep"]]];
   (* 466-471 *) Body "PtraceProcess.filterSignal" true [] [FReads ["SIGTRAP"]];
   (* 473-476 *) Body "PtraceProcess.syscall" true [] [FReads ["ptrace_syscall"]];
   (* 478-483 *) Body "PtraceProcess.setInstrPointer" true [] [FReads ["CPU_INSTR_POINTER"; "ProcessError"]];
   (* 485-490 *) Body "PtraceProcess.getInstrPointer" true [] [FReads ["CPU_INSTR_POINTER"; "ProcessError"]];
   (* 492-496 *) Body "PtraceProcess.getStackPointer" true [] [FReads ["CPU_STACK_POINTER"; "ProcessError"]];
   (* 498-502 *) Body "PtraceProcess.getFramePointer" true [] [FReads ["CPU_FRAME_POINTER"; "ProcessError"]];
   (* 504-536 *) Body "PtraceProcess._readBytes" true [] [FReads ["CPU_WORD_SIZE"; "word2bytes"]];
   (* 538-541 *) Body "PtraceProcess.readWord" true [] [FReads ["ptrace_peektext"]];
   (* 544-552 *) Body "PtraceProcess.readBytes" true [BName "HAS_PTRACE_IO"] [FReads ["create_string_buffer"; "ptrace_io_desc"; "PIOD_READ_D"; "addressof"; "ptrace_io"]];
   (* 554-585 *) Body "PtraceProcess.readBytes" true [BNot (BName "HAS_PTRACE_IO"); BName "HAS_PROC"] [FReads ["EACCES"; "error"; "info"; "ProcessError"; "formatAddress"]];
   (* 589-592 *) Body "PtraceProcess.getsiginfo" true [] [FIf (BNot (BName "HAS_PTRACE_SIGINFO")) [] [FReads ["ptrace_getsiginfo"]]];
   (* 594-640 *) Body "PtraceProcess.writeBytes" true [] [FIf (BName "HAS_PTRACE_IO") [FReads ["create_string_buffer"; "ptrace_io_desc"; "PIOD_WRITE_D"; "addressof"; "ptrace_io"]] [FReads ["CPU_WORD_SIZE"; "bytes2word"]]];
   (* 642-645 *) Body "PtraceProcess.readStruct" true [] [FReads ["sizeof"; "c_char_p"; "bytes2type"]];
   (* 647-650 *) Body "PtraceProcess.readArray" true [] [FReads ["sizeof"; "c_char_p"; "bytes2array"]];
   (* 652-673 *) Body "PtraceProcess.readCString" true [] [];
   (* 675-681 *) Body "PtraceProcess.dumpStack" true [] [FReads ["error"]];
   (* 683-695 *) Body "PtraceProcess._dumpStack" true [] [FReads ["CPU_WORD_SIZE"; "PtraceError"; "formatWordHex"; "formatAddress"]];
   (* 697-698 *) Body "PtraceProcess.readMappings" true [] [FReads ["readProcessMappings"]];
   (* 700-704 *) Body "PtraceProcess.dumpMaps" true [] [FReads ["error"]];
   (* 706-710 *) Body "PtraceProcess.writeWord" true [] [FReads ["ptrace_poketext"]];
   (* 712-719 *) Body "PtraceProcess.dumpRegs" true [] [FReads ["error"; "PtraceError"; "dumpRegs"]];
   (* 721-724 *) Body "PtraceProcess.cont" true [] [FReads ["ptrace_cont"]];
   (* 726-730 *) Body "PtraceProcess.setoptions" true [] [FIf (BNot (BName "HAS_PTRACE_EVENTS")) [] [FReads ["info"; "ptrace_setoptions"]]];
   (* 732-733 *) Body "PtraceProcess.waitEvent" true [] [];
   (* 735-736 *) Body "PtraceProcess.waitSignals" true [] [];
   (* 738-739 *) Body "PtraceProcess.waitSyscall" true [] [];
   (* 741-745 *) Body "PtraceProcess.findBreakpoint" true [] [];
   (* 747-753 *) Body "PtraceProcess.createBreakpoint" true [] [FReads ["ProcessError"; "Breakpoint"]];
   (* 755-756 *) Body "PtraceProcess.getBacktrace" true [] [FReads ["getBacktrace"]];
   (* 758-759 *) Body "PtraceProcess.removeBreakpoint" true [] [];
   (* 761-765 *) Body "PtraceProcess.__del__" true [] [FReads ["PtraceError"]];
   (* 767-768 *) Body "PtraceProcess.__str__" true [] [];
   (* 770-771 *) Body "PtraceProcess.__repr__" true [] [];
   (* 773-774 *) Body "PtraceProcess.__hash__" true [] [];
   (* 776-777 *) Body "PtraceProcess.notImplementedError" true [] []].
(** ptrace/debugger/process_error.py *)
Definition f_ptrace_debugger_process_error : list fbody :=
  [(* 6-8 *) Body "ProcessError.__init__" true [] [FReads ["PtraceError"]]].
(** ptrace/debugger/process_event.py *)
Definition f_ptrace_debugger_process_event : list fbody :=
  [(* 12-14 *) Body "ProcessEvent.__init__" true [] [];
   (* 25-39 *) Body "ProcessExit.__init__" true [] [FReads ["signalName"; "ProcessEvent"]];
   (* 48-50 *) Body "ProcessExecution.__init__" true [] [FReads ["ProcessEvent"]];
   (* 60-61 *) Body "NewProcessEvent.__init__" true [] [FReads ["ProcessEvent"]]].
(** ptrace/debugger/ptrace_signal.py *)
Definition f_ptrace_debugger_ptrace_signal : list fbody :=
  [(* 38-43 *) Body "findDerefSize" false [] [FReads ["NAMED_WORD_SIZE"]];
   (* 46-54 *) Body "evalFaultAddress" false [] [FReads ["parseExpression"; "error"]];
   (* 59-64 *) Body "ProcessSignal.__init__" true [] [FReads ["signalName"; "ProcessEvent"]];
   (* 66-75 *) Body "ProcessSignal._analyze" true [] [FReads ["SIGSEGV"; "SIGBUS"; "SIGFPE"; "SIGCHLD"; "SIGABRT"; "Abort"]];
   (* 77-83 *) Body "ProcessSignal.getInstruction" true [] [FIf (BNot (BName "HAS_DISASSEMBLER")) [] [FReads ["PtraceError"]]];
   (* 85-120 *) Body "ProcessSignal.memoryFaultInstr" true [] [FReads ["re"; "DEREF_REGEX"; "InvalidWrite"; "evalFaultAddress"; "findDerefSize"; "INSTR_REGEX"; "InvalidRead"]];
   (* 122-155 *) Body "ProcessSignal.movsInstr" true [] [FReads ["InvalidMemoryAccess"]; FIf (BName "CPU_64BITS") [] []; FReads ["InvalidRead"; "InvalidWrite"; "PtraceError"]];
   (* 157-161 *) Body "ProcessSignal.getSignalInfo" true [] [FIf (BName "RUNNING_LINUX") [] []];
   (* 163-203 *) Body "ProcessSignal.memoryFault" true [] [FReads ["PtraceError"; "InstructionError"; "StackOverflow"; "InvalidMemoryAccess"]];
   (* 205-212 *) Body "ProcessSignal.mathError" true [] [FReads ["re"; "DivisionByZero"]];
   (* 214-220 *) Body "ProcessSignal.childExit" true [] [FReads ["ChildExit"]];
   (* 222-231 *) Body "ProcessSignal.display" true [] [FReads ["error"]]].
(** ptrace/debugger/signal_reason.py *)
Definition f_ptrace_debugger_signal_reason : list fbody :=
  [(* 20-36 *) Body "extractRegisters" false [] [FReads ["REGISTER_REGEX"; "PtraceError"]];
   (* 39-62 *) Body "findMappings" false [] [FReads ["formatAddress"]];
   (* 67-77 *) Body "SignalInfo.__init__" true [] [FReads ["extractRegisters"; "findMappings"]];
   (* 79-87 *) Body "SignalInfo.display" true [] [FReads ["formatWordHex"]];
   (* 89-90 *) Body "SignalInfo.displayExtra" true [] [];
   (* 95-97 *) Body "DivisionByZero.__init__" true [] [FReads ["SignalInfo"]];
   (* 102-104 *) Body "Abort.__init__" true [] [FReads ["SignalInfo"]];
   (* 109-116 *) Body "StackOverflow.__init__" true [] [FReads ["SignalInfo"]];
   (* 124-144 *) Body "InvalidMemoryAccess.__init__" true [] [FReads ["formatAddress"; "SignalInfo"]];
   (* 161-167 *) Body "InstructionError.__init__" true [] [FReads ["SignalInfo"; "formatAddress"]];
   (* 172-180 *) Body "ChildExit.__init__" true [] [FReads ["formatProcessStatus"; "SignalInfo"]];
   (* 182-184 *) Body "ChildExit.displayExtra" true [] []].
(** ptrace/debugger/syscall_state.py *)
Definition f_ptrace_debugger_syscall_state : list fbody :=
  [(* 7-11 *) Body "SyscallState.__init__" true [] [];
   (* 13-17 *) Body "SyscallState.event" true [] [];
   (* 19-30 *) Body "SyscallState.enter" true [] [FReads ["PtraceSyscall"]];
   (* 32-43 *) Body "SyscallState.exit" true [] [FReads ["SIGTRAP"]];
   (* 45-48 *) Body "SyscallState.clear" true [] []].
(** ptrace/syscall/posix_arg.py *)
Definition f_ptrace_syscall_posix_arg : list fbody :=
  [(* 15-16 *) Body "formatMmapProt" false [] [FReads ["formatBits"; "MMAP_PROT_BITMASK"]];
   (* 27-28 *) Body "formatAccessMode" false [] [FReads ["formatBits"; "ACCESS_MODE_BITMASK"]];
   (* 54-65 *) Body "formatOpenFlags" false [] [FReads ["readBits"; "OPEN_FLAGS_BITMASK"]];
   (* 81-90 *) Body "formatOpenMode" false [] [FReads ["readBits"; "OPEN_MODE_BITMASK"]];
   (* 116-126 *) Body "formatCloneFlags" false [] [FReads ["readBits"; "CLONE_FLAGS_BITMASK"; "signalName"]];
   (* 132-134 *) Body "formatDirFd" false [] [FReads ["uint2int"; "AT_FDCWD"]]].
(** ptrace/syscall/ptrace_syscall.py *)
Definition f_ptrace_syscall_ptrace_syscall : list fbody :=
  [(* 56-65 *) Body "PtraceSyscall.__init__" true [] [FReads ["SyscallArgument"; "FunctionCall"]];
   (* 67-83 *) Body "PtraceSyscall.enter" true [] [FReads ["setupSocketCall"; "PREFORMAT_ARGUMENTS"; "CPU_INSTR_POINTER"]];
   (* 85-90 *) Body "PtraceSyscall.readSyscall" true [] [FReads ["SYSCALL_REGISTER"; "SYSCALL_NAMES"]];
   (* 92-109 *) Body "PtraceSyscall.readArgumentValues" true [] [FIf (BName "CPU_X86_64") [] [FIf (BName "CPU_ARM32") [] [FIf (BName "CPU_AARCH64") [] [FIf (BName "CPU_RISCV") [] [FIf (BName "RUNNING_BSD") [FReads ["CPU_WORD_SIZE"]] [FIf (BName "CPU_I386") [] [FIf (BName "CPU_POWERPC") [] []]]]]]]];
   (* 111-119 *) Body "PtraceSyscall.readArguments" true [] [FReads ["SYSCALL_PROTOTYPES"]];
   (* 121-153 *) Body "PtraceSyscall.exit" true [] [FReads ["PREFORMAT_ARGUMENTS"; "RETURN_VALUE_REGISTER"; "formatAddress"; "ulong2long"; "errorcode"; "strerror"; "formatWordHex"]];
   (* 155-156 *) Body "PtraceSyscall.__str__" true [] []].
(** ptrace/syscall/socketcall.py *)
Definition f_ptrace_syscall_socketcall : list fbody :=
  [(* 16-24 *) Body "formatOptVal" false [] [FReads ["c_int"]];
   (* 27-41 *) Body "formatSockaddr" false [] [FReads ["sockaddr"; "AF_INET"; "sockaddr_in"; "AF_INET6"; "sockaddr_in6"; "AF_FILE"; "sockaddr_un"]; FIf (BName "RUNNING_LINUX") [FReads ["AF_NETLINK"; "sockaddr_nl"]] []; FReads ["SOCKET_FAMILY"]];
   (* 44-58 *) Body "setupSocketCall" false [] [FReads ["SYSCALL_PROTOTYPES"; "CPU_WORD_SIZE"]];
   (* 61-64 *) Body "formatSockaddrInStruct" false [] [FReads ["ntoh_ushort"]];
   (* 67-72 *) Body "formatSockaddrIn6Struct" false [] [FReads ["ntoh_ushort"]]].
(** ptrace/syscall/socketcall_constants.py *)
Definition f_ptrace_syscall_socketcall_constants : list fbody :=
  [(* 62-73 *) Body "formatSocketType" false [] [FReads ["socket"; "SOCKET_TYPE"]]].
(** ptrace/syscall/socketcall_struct.py *)
Definition f_ptrace_syscall_socketcall_struct : list fbody :=
  [(* 8-16 *) Body "ip_int2str" false [] [FReads ["pack"; "inet_ntoa"]];
   (* 42-44 *) Body "in_addr.__repr__" true [] [FReads ["ntoh_uint"; "ip_int2str"]];
   (* 54-56 *) Body "in6_addr.__repr__" true [] [FReads ["ntoh_ushort"]]].
(** ptrace/syscall/syscall_argument.py *)
Definition f_ptrace_syscall_syscall_argument : list fbody :=
  [(* 66-70 *) Body "iterBits" false [] [];
   (* 75-152 *) Body "SyscallArgument.createText" true [] [FReads ["formatWordHex"; "SYSCALL_ARG_DICT"; "ARGUMENT_CALLBACK"; "FunctionCall"; "setupSocketCall"; "SOCKETCALL"; "signalName"; "FILENAME_ARGUMENTS"; "PTRACE_ERRORS"; "formatAddress"; "writeError"; "getLogger"; "INFO"; "re"; "c_int"; "INTEGER_TYPES"; "uint2int"]];
   (* 154-191 *) Body "SyscallArgument.formatValuePointer" true [] [FReads ["POINTER_CALLBACK"; "c_int"; "KNOWN_STRUCTS"]; FIf (BName "RUNNING_LINUX") [FReads ["FD_SETSIZE"]] []; FReads ["signalName"]];
   (* 193-197 *) Body "SyscallArgument.readBits" true [] [FReads ["iterBits"]];
   (* 199-210 *) Body "SyscallArgument.readCString" true [] [FReads ["os"]];
   (* 212-224 *) Body "SyscallArgument.readString" true [] [FReads ["os"]];
   (* 226-242 *) Body "SyscallArgument.readCStringArray" true [] [FReads ["CPU_WORD_SIZE"]];
   (* 244-248 *) Body "SyscallArgument.formatStructValue" true [] [FReads ["STRUCT_CALLBACK"]]].
(** strace.py *)
Definition f_strace : list fbody :=
  [(* 20-27 *) Body "SyscallTracer.__init__" true [] [FReads ["Application"]];
   (* 29-36 *) Body "SyscallTracer.setupLog" true [] [FReads ["stderr"]];
   (* 38-135 *) Body "SyscallTracer.parseOptions" true [] [FReads ["OptionParser"; "SYSCALL_NAMES"; "stderr"; "SYSCALL_PROTOTYPES"; "FILENAME_ARGUMENTS"; "SOCKET_SYSCALL_NAMES"; "re"]];
   (* 137-143 *) Body "SyscallTracer.ignoreSyscall" true [] [];
   (* 145-156 *) Body "SyscallTracer.displaySyscall" true [] [FReads ["formatAddress"; "error"]];
   (* 158-189 *) Body "SyscallTracer.syscallTrace" true [] [FReads ["ProcessExit"; "ProcessSignal"; "NewProcessEvent"; "ProcessExecution"; "signal_to_exitcode"]];
   (* 191-198 *) Body "SyscallTracer.syscall" true [] [];
   (* 200-209 *) Body "SyscallTracer.processExited" true [] [FReads ["error"]];
   (* 211-213 *) Body "SyscallTracer.prepareProcess" true [] [];
   (* 215-219 *) Body "SyscallTracer.newProcess" true [] [FReads ["error"]];
   (* 221-224 *) Body "SyscallTracer.processExecution" true [] [FReads ["error"]];
   (* 226-243 *) Body "SyscallTracer.runDebugger" true [] [FReads ["FunctionCallOptions"]];
   (* 245-253 *) Body "SyscallTracer.main" true [] [FReads ["getLogger"; "sys"]];
   (* 255-275 *) Body "SyscallTracer._main" true [] [FReads ["PtraceDebugger"; "ProcessExit"; "PtraceError"; "PTRACE_ERRORS"; "error"; "writeError"; "getLogger"]];
   (* 277-281 *) Body "SyscallTracer.createChild" true [] [FReads ["Application"; "error"]]].
(** gdb.py *)
Definition f_gdb : list fbody :=
  [(* 95-104 *) Body "formatAscii" false [] [FReads ["unichr"; "RUNNING_PYTHON3"]];
   (* 107-111 *) Body "formatHexa" false [] [FReads ["RUNNING_PYTHON3"]];
   (* 117-122 *) Body "getPointers" false [] [FReads ["word2bytes"; "readProcessMappings"]];
   (* 127-148 *) Body "Gdb.__init__" true [] [FReads ["Application"; "FunctionCallOptions"]];
   (* 150-151 *) Body "Gdb.setupLog" true [] [FReads ["stdout"]];
   (* 153-165 *) Body "Gdb.parseOptions" true [] [FReads ["OptionParser"]];
   (* 167-179 *) Body "Gdb._continueProcess" true [] [FReads ["error"; "signalName"]];
   (* 181-205 *) Body "Gdb.cont" true [] [FReads ["SIGTRAP"]; FIf (BNot (BName "CPU_POWERPC")) [] []; FReads ["error"]];
   (* 207-210 *) Body "Gdb.readRegister" true [] [];
   (* 212-252 *) Body "Gdb.parseInteger" true [] [FReads ["REGISTER_REGEX"; "re"; "truncateWord"]];
   (* 254-260 *) Body "Gdb.parseIntegers" true [] [];
   (* 262-270 *) Body "Gdb.parseBytes" true [] [];
   (* 272-275 *) Body "Gdb.addFollowTerm" true [] [];
   (* 277-278 *) Body "Gdb.showFollowTerms" true [] [];
   (* 280-285 *) Body "Gdb._xray" true [] [FReads ["readProcessMappings"]];
   (* 289-296 *) Body "Gdb.xray" true [] [FReads ["formatAddress"; "getPointers"]];
   (* 298-365 *) Body "Gdb.execute" true [] [FReads ["stderr"]];
   (* 367-379 *) Body "Gdb.parseSignum" true [] [FReads ["SIGNALS"]];
   (* 381-394 *) Body "Gdb.signal" true [] [];
   (* 396-407 *) Body "Gdb.print_" true [] [FReads ["error"; "formatWordHex"]];
   (* 409-427 *) Body "Gdb.gcore" true [] [];
   (* 429-493 *) Body "Gdb.hexdump" true [] [FReads ["terminalWidth"; "formatAddress"; "PtraceError"; "formatHexa"; "formatAscii"; "error"; "warning"; "formatAddressRange"]];
   (* 495-501 *) Body "Gdb.backtrace" true [] [FReads ["error"]];
   (* 503-515 *) Body "Gdb.where" true [] [];
   (* 517-518 *) Body "Gdb.procInfo" true [] [FReads ["dumpProcessInfo"; "error"]];
   (* 520-525 *) Body "Gdb.procList" true [] [FReads ["error"]];
   (* 527-545 *) Body "Gdb.set" true [] [FReads ["ProcessError"; "error"]];
   (* 547-556 *) Body "Gdb.displayInstr" true [] [FIf (BName "HAS_DISASSEMBLER") [FReads ["error"; "formatAddress"]] []; FReads ["PtraceError"; "error"]];
   (* 558-564 *) Body "Gdb.attachProcess" true [] [];
   (* 566-598 *) Body "Gdb.step" true [] [FReads ["HAS_PTRACE_SINGLESTEP"; "formatAddress"; "SIGTRAP"]];
   (* 600-601 *) Body "Gdb.newProcess" true [] [FReads ["error"]];
   (* 605-626 *) Body "Gdb.syscallTrace" true [] [FReads ["error"]];
   (* 628-637 *) Body "Gdb.until" true [] [];
   (* 639-658 *) Body "Gdb.switch" true [] [];
   (* 660-664 *) Body "Gdb.switchProcess" true [] [FReads ["error"]];
   (* 666-671 *) Body "Gdb.nextProcess" true [] [];
   (* 673-680 *) Body "Gdb.displayBreakpoints" true [] [FReads ["error"]];
   (* 682-686 *) Body "Gdb.displaySignals" true [] [FReads ["SIGNAMES"; "error"]];
   (* 688-698 *) Body "Gdb.readInstrSize" true [] [FIf (BNot (BName "HAS_DISASSEMBLER")) [] [FReads ["PtraceError"; "warning"; "formatAddress"]]];
   (* 700-714 *) Body "Gdb.breakpoint" true [] [FReads ["PtraceError"; "formatAddress"; "error"]];
   (* 716-727 *) Body "Gdb.delete" true [] [FReads ["formatAddress"; "error"]];
   (* 729-736 *) Body "Gdb.help" true [] [FReads ["COMMANDS"; "error"]];
   (* 738-742 *) Body "Gdb.processSignal" true [] [FReads ["error"]];
   (* 744-747 *) Body "Gdb.processExecution" true [] [FReads ["error"]];
   (* 749-752 *) Body "Gdb.debuggerInfo" true [] [FReads ["error"; "getpid"; "VERSION"; "WEBSITE"]];
   (* 754-774 *) Body "Gdb.interrupt" true [] [FReads ["warning"; "SIGINT"; "info"; "ProcessSignal"]];
   (* 776-784 *) Body "Gdb.deleteProcess" true [] [FReads ["error"]];
   (* 786-788 *) Body "Gdb.restoreTerminal" true [] [FReads ["enableEchoMode"; "error"]];
   (* 790-847 *) Body "Gdb.mainLoop" true [] [FReads ["error"; "raw_input"; "info"; "NewProcessEvent"; "ProcessSignal"; "ProcessExit"; "ProcessExecution"; "PtraceError"; "ESRCH"]];
   (* 849-870 *) Body "Gdb.runDebugger" true [] [FReads ["ChildError"; "writeError"; "getLogger"]];
   (* 872-883 *) Body "Gdb.main" true [] [FReads ["PtraceDebugger"; "PTRACE_ERRORS"; "error"; "writeError"; "getLogger"]]].
(** examples/itrace.py *)
Definition f_itrace : list fbody :=
  [(* 22-26 *) Body "Tracer.createCommonOptions" true [] [FReads ["Tracer"]];
   (* 28-49 *) Body "Tracer.syscallTrace" true [] [FReads ["ProcessExit"; "ProcessSignal"; "signal"]]].
(** examples/simple_dbg.py *)
Definition f_simple_dbg : list fbody :=
  [(* 7-15 *) Body "playWithProcess" false [] [];
   (* 17-25 *) Body "traceProgram" false [] [FReads ["locateProgram"; "createChild"]];
   (* 27-57 *) Body "main" false [] [FReads ["argv"; "stderr"; "traceProgram"; "PtraceDebugger"; "playWithProcess"]]].
(** The functions of every module that has some *)
Definition functions : list (name * list fbody) :=
  [("ptrace.ctypes_tools", f_ptrace_ctypes_tools);
   ("ptrace.disasm", f_ptrace_disasm);
   ("ptrace.error", f_ptrace_error);
   ("ptrace.func_arg", f_ptrace_func_arg);
   ("ptrace.func_call", f_ptrace_func_call);
   ("ptrace.linux_proc", f_ptrace_linux_proc);
   ("ptrace.logging_tools", f_ptrace_logging_tools);
   ("ptrace.mockup", f_ptrace_mockup);
   ("ptrace.process_tools", f_ptrace_process_tools);
   ("ptrace.profiler", f_ptrace_profiler);
   ("ptrace.pydistorm", f_ptrace_pydistorm);
   ("ptrace.signames", f_ptrace_signames);
   ("ptrace.terminal", f_ptrace_terminal);
   ("ptrace.tools", f_ptrace_tools);
   ("ptrace.binding.func", f_ptrace_binding_func);
   ("ptrace.binding.linux_struct", f_ptrace_binding_linux_struct);
   ("ptrace.debugger.application", f_ptrace_debugger_application);
   ("ptrace.debugger.backtrace", f_ptrace_debugger_backtrace);
   ("ptrace.debugger.breakpoint", f_ptrace_debugger_breakpoint);
   ("ptrace.debugger.child", f_ptrace_debugger_child);
   ("ptrace.debugger.debugger", f_ptrace_debugger_debugger);
   ("ptrace.debugger.memory_mapping", f_ptrace_debugger_memory_mapping);
   ("ptrace.debugger.parse_expr", f_ptrace_debugger_parse_expr);
   ("ptrace.debugger.process", f_ptrace_debugger_process);
   ("ptrace.debugger.process_error", f_ptrace_debugger_process_error);
   ("ptrace.debugger.process_event", f_ptrace_debugger_process_event);
   ("ptrace.debugger.ptrace_signal", f_ptrace_debugger_ptrace_signal);
   ("ptrace.debugger.signal_reason", f_ptrace_debugger_signal_reason);
   ("ptrace.debugger.syscall_state", f_ptrace_debugger_syscall_state);
   ("ptrace.syscall.posix_arg", f_ptrace_syscall_posix_arg);
   ("ptrace.syscall.ptrace_syscall", f_ptrace_syscall_ptrace_syscall);
   ("ptrace.syscall.socketcall", f_ptrace_syscall_socketcall);
   ("ptrace.syscall.socketcall_constants", f_ptrace_syscall_socketcall_constants);
   ("ptrace.syscall.socketcall_struct", f_ptrace_syscall_socketcall_struct);
   ("ptrace.syscall.syscall_argument", f_ptrace_syscall_syscall_argument);
   ("strace", f_strace);
   ("gdb", f_gdb);
   ("itrace", f_itrace);
   ("simple_dbg", f_simple_dbg)].
