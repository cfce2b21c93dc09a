(** * ImpNames: the names of modules, functions, classes and variables, as numbers.
    A name written between quotation marks in the scope [name_scope] stands for its position in this table.  (Numbers are compared faster than texts;
    a name that is not in the table can not be written.) *)
From Coq Require Import List String Ascii Bool PArith Strings.Byte.
Import ListNotations.

Definition name : Set := positive.
(** The files of the project (ptrace/**/*.py, strace.py, gdb.py, examples/*.py), then their functions and all names they define, import or read *)
Definition name_table : list string :=
  ["ptrace"; "ptrace.cpu_info"; "ptrace.ctypes_libc"; "ptrace.ctypes_tools"; "ptrace.disasm"; "ptrace.error"; "ptrace.func_arg"; "ptrace.func_call"; "ptrace.linux_proc";
   "ptrace.logging_tools"; "ptrace.mockup"; "ptrace.os_tools"; "ptrace.process_tools"; "ptrace.profiler"; "ptrace.pydistorm"; "ptrace.signames"; "ptrace.terminal"; "ptrace.tools";
   "ptrace.version"; "ptrace.binding"; "ptrace.binding.cpu"; "ptrace.binding.freebsd_struct"; "ptrace.binding.func"; "ptrace.binding.linux_struct"; "ptrace.binding.openbsd_struct";
   "ptrace.debugger"; "ptrace.debugger.application"; "ptrace.debugger.backtrace"; "ptrace.debugger.breakpoint"; "ptrace.debugger.child"; "ptrace.debugger.debugger";
   "ptrace.debugger.memory_mapping"; "ptrace.debugger.parse_expr"; "ptrace.debugger.process"; "ptrace.debugger.process_error"; "ptrace.debugger.process_event";
   "ptrace.debugger.ptrace_signal"; "ptrace.debugger.signal_reason"; "ptrace.debugger.syscall_state"; "ptrace.syscall"; "ptrace.syscall.freebsd_constants";
   "ptrace.syscall.freebsd_syscall"; "ptrace.syscall.linux_constants"; "ptrace.syscall.linux_struct"; "ptrace.syscall.names"; "ptrace.syscall.posix_arg";
   "ptrace.syscall.posix_constants"; "ptrace.syscall.prototypes"; "ptrace.syscall.ptrace_syscall"; "ptrace.syscall.socketcall"; "ptrace.syscall.socketcall_constants";
   "ptrace.syscall.socketcall_struct"; "ptrace.syscall.syscall_argument"; "ptrace.syscall.linux"; "ptrace.syscall.linux.aarch64"; "ptrace.syscall.linux.i386";
   "ptrace.syscall.linux.powerpc32"; "ptrace.syscall.linux.powerpc64"; "ptrace.syscall.linux.riscv32"; "ptrace.syscall.linux.riscv64"; "ptrace.syscall.linux.x86_64"; "strace"; "gdb";
   "itrace"; "simple_dbg"; "ACCESS_MODE_BITMASK"; "AF_FILE"; "AF_INET"; "AF_INET6"; "AF_NETLINK"; "ALIASES"; "ARGUMENT_CALLBACK"; "AT_FDCWD"; "Abort"; "Abort.__init__";
   "Application"; "Application.__init__"; "Application._setupLog"; "Application.createChild"; "Application.createCommonOptions"; "Application.createLogOptions";
   "Application.createProcess"; "Application.processOptions"; "Application.setupDebugger"; "Backtrace"; "Backtrace.__init__"; "Backtrace.__iter__"; "Backtrace.__len__";
   "Backtrace.append"; "BacktraceFrame"; "BacktraceFrame.__init__"; "BacktraceFrame.__str__"; "Breakpoint"; "Breakpoint.__del__"; "Breakpoint.__init__"; "Breakpoint.__str__";
   "Breakpoint.desinstall"; "CDLL"; "CLONE_FLAGS_BITMASK"; "COMMANDS"; "CPU_64BITS"; "CPU_AARCH64"; "CPU_ARM"; "CPU_ARM32"; "CPU_BIGENDIAN"; "CPU_FRAME_POINTER"; "CPU_I386";
   "CPU_INSTR_POINTER"; "CPU_INTEL"; "CPU_MAX_UINT"; "CPU_POWERPC"; "CPU_PPC32"; "CPU_PPC64"; "CPU_RISCV"; "CPU_RISCV32"; "CPU_RISCV64"; "CPU_STACK_POINTER"; "CPU_SUB_REGISTERS";
   "CPU_WORD_SIZE"; "CPU_X86_64"; "ChildError"; "ChildExit"; "ChildExit.__init__"; "ChildExit.displayExtra"; "ChildPtraceError"; "DEBUG"; "DECODERS"; "DECRES_INPUTERR";
   "DECRES_MEMORYERR"; "DECRES_NONE"; "DECRES_SUCCESS"; "DEFAULT_CODE_SIZE"; "DEFAULT_NB_INSTR"; "DEREF_REGEX"; "DISTORM3"; "DebuggerError"; "Decode"; "Decode16Bits"; "Decode32Bits";
   "Decode64Bits"; "DecodeBits"; "DivisionByZero"; "DivisionByZero.__init__"; "EACCES"; "ECHILD"; "ECHO"; "EINTR"; "EPERM"; "ERROR"; "ESRCH"; "EXPR_REGEX"; "FD_SETSIZE";
   "FILENAME_ARGUMENTS"; "FakeProcess"; "FakeProcess.__init__"; "FakeProcess.getreg"; "FakeProcess.setreg"; "FunctionArgument"; "FunctionArgument.__init__";
   "FunctionArgument.__repr__"; "FunctionArgument.createText"; "FunctionArgument.format"; "FunctionArgument.formatPointer"; "FunctionArgument.formatStructValue";
   "FunctionArgument.getText"; "FunctionArgument.readArray"; "FunctionArgument.readStruct"; "FunctionCall"; "FunctionCall.__getitem__"; "FunctionCall.__init__";
   "FunctionCall.__repr__"; "FunctionCall.addArgument"; "FunctionCall.clearArguments"; "FunctionCall.format"; "FunctionCallOptions"; "FunctionCallOptions.__init__"; "Gdb";
   "Gdb.__init__"; "Gdb._continueProcess"; "Gdb._xray"; "Gdb.addFollowTerm"; "Gdb.attachProcess"; "Gdb.backtrace"; "Gdb.breakpoint"; "Gdb.cont"; "Gdb.debuggerInfo"; "Gdb.delete";
   "Gdb.deleteProcess"; "Gdb.displayBreakpoints"; "Gdb.displayInstr"; "Gdb.displaySignals"; "Gdb.execute"; "Gdb.gcore"; "Gdb.help"; "Gdb.hexdump"; "Gdb.interrupt"; "Gdb.main";
   "Gdb.mainLoop"; "Gdb.newProcess"; "Gdb.nextProcess"; "Gdb.parseBytes"; "Gdb.parseInteger"; "Gdb.parseIntegers"; "Gdb.parseOptions"; "Gdb.parseSignum"; "Gdb.print_";
   "Gdb.procInfo"; "Gdb.procList"; "Gdb.processExecution"; "Gdb.processSignal"; "Gdb.readInstrSize"; "Gdb.readRegister"; "Gdb.restoreTerminal"; "Gdb.runDebugger"; "Gdb.set";
   "Gdb.setupLog"; "Gdb.showFollowTerms"; "Gdb.signal"; "Gdb.step"; "Gdb.switch"; "Gdb.switchProcess"; "Gdb.syscallTrace"; "Gdb.until"; "Gdb.where"; "Gdb.xray"; "HAS_CPTRACE";
   "HAS_DISASSEMBLER"; "HAS_PROC"; "HAS_PTRACE"; "HAS_PTRACE_EVENTS"; "HAS_PTRACE_GETREGS"; "HAS_PTRACE_GETREGSET"; "HAS_PTRACE_IO"; "HAS_PTRACE_SETREGS"; "HAS_PTRACE_SETREGSET";
   "HAS_PTRACE_SIGINFO"; "HAS_PTRACE_SINGLESTEP"; "HAS_UNAME"; "HEXADECIMAL_REGEX"; "INFO"; "INSTR_REGEX"; "INTEGER_TYPES"; "Instruction"; "Instruction.__init__";
   "Instruction.__str__"; "InstructionError"; "InstructionError.__init__"; "InvalidMemoryAccess"; "InvalidMemoryAccess.__init__"; "InvalidRead"; "InvalidWrite"; "KNOWN_STRUCTS";
   "LIBC_FILENAME"; "LIB_FILENAME"; "LICENSE"; "LOCAL_TIMEZONE_OFFSET"; "MAXFD"; "MAX_CODE_SIZE"; "MAX_INSTRUCTIONS"; "MAX_INSTR_SIZE"; "MAX_TEXT_SIZE"; "MIN_CODE_SIZE";
   "MMAP_PROT_BITMASK"; "MemoryMapping"; "MemoryMapping.__contains__"; "MemoryMapping.__init__"; "MemoryMapping.__str__"; "MemoryMapping.search"; "NAMED_WORD_SIZE";
   "NEW_PROCESS_EVENT"; "NT_PRSTATUS"; "NewProcessEvent"; "NewProcessEvent.__init__"; "OPEN_FLAGS_BITMASK"; "OPEN_MODE_BITMASK"; "OptionGroup"; "OptionParser"; "PACKAGE";
   "PAGE_SIZE"; "PIOD_READ_D"; "PIOD_READ_I"; "PIOD_WRITE_D"; "PIOD_WRITE_I"; "POINTER"; "POINTER_CALLBACK"; "PREFERRED_NAMES"; "PREFORMAT_ARGUMENTS"; "PROC_MAP_REGEX";
   "PTRACE_ATTACH"; "PTRACE_CONT"; "PTRACE_DETACH"; "PTRACE_ERRORS"; "PTRACE_EVENT_CLONE"; "PTRACE_EVENT_EXEC"; "PTRACE_EVENT_EXIT"; "PTRACE_EVENT_FORK"; "PTRACE_EVENT_VFORK";
   "PTRACE_EVENT_VFORK_DONE"; "PTRACE_GETEVENTMSG"; "PTRACE_GETFPREGS"; "PTRACE_GETFPXREGS"; "PTRACE_GETREGS"; "PTRACE_GETREGSET"; "PTRACE_GETSIGINFO"; "PTRACE_IO"; "PTRACE_KILL";
   "PTRACE_O_TRACECLONE"; "PTRACE_O_TRACEEXEC"; "PTRACE_O_TRACEEXIT"; "PTRACE_O_TRACEFORK"; "PTRACE_O_TRACESYSGOOD"; "PTRACE_O_TRACEVFORK"; "PTRACE_O_TRACEVFORKDONE";
   "PTRACE_PEEKDATA"; "PTRACE_PEEKTEXT"; "PTRACE_PEEKUSER"; "PTRACE_POKEDATA"; "PTRACE_POKETEXT"; "PTRACE_POKEUSER"; "PTRACE_SETFPREGS"; "PTRACE_SETFPXREGS"; "PTRACE_SETOPTIONS";
   "PTRACE_SETREGS"; "PTRACE_SETREGSET"; "PTRACE_SETSIGINFO"; "PTRACE_SINGLESTEP"; "PTRACE_SYSCALL"; "PTRACE_TRACEME"; "ProcError"; "ProcessError"; "ProcessError.__init__";
   "ProcessEvent"; "ProcessEvent.__init__"; "ProcessExecution"; "ProcessExecution.__init__"; "ProcessExit"; "ProcessExit.__init__"; "ProcessSignal"; "ProcessSignal.__init__";
   "ProcessSignal._analyze"; "ProcessSignal.childExit"; "ProcessSignal.display"; "ProcessSignal.getInstruction"; "ProcessSignal.getSignalInfo"; "ProcessSignal.mathError";
   "ProcessSignal.memoryFault"; "ProcessSignal.memoryFaultInstr"; "ProcessSignal.movsInstr"; "ProcessState"; "ProcessState.__init__"; "Profile"; "PtraceDebugger";
   "PtraceDebugger.__getitem__"; "PtraceDebugger.__init__"; "PtraceDebugger.__iter__"; "PtraceDebugger.__len__"; "PtraceDebugger._wait_event"; "PtraceDebugger._wait_event_pid";
   "PtraceDebugger._waitpid"; "PtraceDebugger.addProcess"; "PtraceDebugger.deleteProcess"; "PtraceDebugger.enableSysgood"; "PtraceDebugger.quit"; "PtraceDebugger.traceClone";
   "PtraceDebugger.traceExec"; "PtraceDebugger.traceFork"; "PtraceDebugger.waitProcessEvent"; "PtraceDebugger.waitSignals"; "PtraceDebugger.waitSyscall"; "PtraceError";
   "PtraceError.__init__"; "PtraceProcess"; "PtraceProcess.__del__"; "PtraceProcess.__hash__"; "PtraceProcess.__init__"; "PtraceProcess.__repr__"; "PtraceProcess.__str__";
   "PtraceProcess._dumpCode"; "PtraceProcess._dumpStack"; "PtraceProcess._notRunning"; "PtraceProcess._readBytes"; "PtraceProcess.attach"; "PtraceProcess.cont";
   "PtraceProcess.createBreakpoint"; "PtraceProcess.detach"; "PtraceProcess.disassemble"; "PtraceProcess.disassembleOne"; "PtraceProcess.dumpCode"; "PtraceProcess.dumpMaps";
   "PtraceProcess.dumpRegs"; "PtraceProcess.dumpStack"; "PtraceProcess.filterSignal"; "PtraceProcess.findBreakpoint"; "PtraceProcess.findStack"; "PtraceProcess.getBacktrace";
   "PtraceProcess.getFramePointer"; "PtraceProcess.getInstrPointer"; "PtraceProcess.getStackPointer"; "PtraceProcess.getreg"; "PtraceProcess.getregs"; "PtraceProcess.getsiginfo";
   "PtraceProcess.isTraced"; "PtraceProcess.kill"; "PtraceProcess.notImplementedError"; "PtraceProcess.processExited"; "PtraceProcess.processKilled"; "PtraceProcess.processSignal";
   "PtraceProcess.processStatus"; "PtraceProcess.processTerminated"; "PtraceProcess.ptraceEvent"; "PtraceProcess.readArray"; "PtraceProcess.readBytes"; "PtraceProcess.readCString";
   "PtraceProcess.readMappings"; "PtraceProcess.readStruct"; "PtraceProcess.readWord"; "PtraceProcess.removeBreakpoint"; "PtraceProcess.setInstrPointer"; "PtraceProcess.setoptions";
   "PtraceProcess.setreg"; "PtraceProcess.setregs"; "PtraceProcess.singleStep"; "PtraceProcess.syscall"; "PtraceProcess.terminate"; "PtraceProcess.waitEvent";
   "PtraceProcess.waitExit"; "PtraceProcess.waitSignals"; "PtraceProcess.waitSyscall"; "PtraceProcess.writeBytes"; "PtraceProcess.writeWord"; "PtraceSyscall";
   "PtraceSyscall.__init__"; "PtraceSyscall.__str__"; "PtraceSyscall.enter"; "PtraceSyscall.exit"; "PtraceSyscall.readArgumentValues"; "PtraceSyscall.readArguments";
   "PtraceSyscall.readSyscall"; "REGISTER_NAMES"; "REGISTER_REGEX"; "RETURN_VALUE_REGISTER"; "RLIMIT_RESOURCE"; "RUNNING_BSD"; "RUNNING_FREEBSD"; "RUNNING_LINUX"; "RUNNING_MACOSX";
   "RUNNING_OPENBSD"; "RUNNING_PYPY"; "RUNNING_PYTHON3"; "SETSOCKOPT_LEVEL"; "SETSOCKOPT_OPTNAME"; "SIGABRT"; "SIGBUS"; "SIGCHLD"; "SIGFPE"; "SIGINT"; "SIGKILL"; "SIGNALS";
   "SIGNAMES"; "SIGPROCMASK_HOW"; "SIGSEGV"; "SIGSET_SIZE"; "SIGSTOP"; "SIGTRAP"; "SOCKETCALL"; "SOCKET_FAMILY"; "SOCKET_PROTOCOL"; "SOCKET_SYSCALL_NAMES"; "SOCKET_TYPE";
   "STRUCT_CALLBACK"; "SUPPORT_64BIT_OFFSET"; "SYSCALL_ARG_DICT"; "SYSCALL_NAMES"; "SYSCALL_PROTOTYPES"; "SYSCALL_REGISTER"; "SignalInfo"; "SignalInfo.__init__";
   "SignalInfo.display"; "SignalInfo.displayExtra"; "StackOverflow"; "StackOverflow.__init__"; "StreamHandler"; "StringIO"; "Structure"; "SyscallArgument";
   "SyscallArgument.createText"; "SyscallArgument.formatStructValue"; "SyscallArgument.formatValuePointer"; "SyscallArgument.readBits"; "SyscallArgument.readCString";
   "SyscallArgument.readCStringArray"; "SyscallArgument.readString"; "SyscallState"; "SyscallState.__init__"; "SyscallState.clear"; "SyscallState.enter"; "SyscallState.event";
   "SyscallState.exit"; "SyscallTracer"; "SyscallTracer.__init__"; "SyscallTracer._main"; "SyscallTracer.createChild"; "SyscallTracer.displaySyscall"; "SyscallTracer.ignoreSyscall";
   "SyscallTracer.main"; "SyscallTracer.newProcess"; "SyscallTracer.parseOptions"; "SyscallTracer.prepareProcess"; "SyscallTracer.processExecution"; "SyscallTracer.processExited";
   "SyscallTracer.runDebugger"; "SyscallTracer.setupLog"; "SyscallTracer.syscall"; "SyscallTracer.syscallTrace"; "TCSADRAIN"; "TERMIO_LFLAGS"; "THREAD_TRACE_FLAGS"; "TIOCGWINSZ";
   "Tracer"; "Tracer.createCommonOptions"; "Tracer.syscallTrace"; "UNIX_TIMESTAMP_T0"; "Union"; "VERSION"; "WARNING"; "WCOREDUMP"; "WEBSITE"; "WEXITSTATUS"; "WIFEXITED";
   "WIFSIGNALED"; "WIFSTOPPED"; "WNOHANG"; "WPTRACEEVENT"; "WSTOPSIG"; "WTERMSIG"; "X_OK"; "_DecodedInst"; "_DecodedInst.__str__"; "_OffsetType"; "_WString"; "_WString.__str__";
   "__version__"; "_createChild"; "_createParent"; "_execChild"; "_machine"; "_peek"; "_poke"; "_ptrace"; "_read_no_intr"; "_set_cloexec_flag"; "_sifields_sigchld_t";
   "_sifields_sigfault_t"; "_sifields_t"; "_terminalSize"; "_waitpid_no_intr"; "_write_no_intr"; "aarch64"; "access"; "addressof"; "application"; "architecture"; "argv"; "backtrace";
   "binding"; "bits"; "breakpoint"; "byref"; "byteorder"; "bytes2array"; "bytes2type"; "bytes2word"; "c_char"; "c_char_p"; "c_int"; "c_long"; "c_longlong"; "c_short"; "c_size_t";
   "c_ubyte"; "c_uint"; "c_uint16"; "c_uint32"; "c_uint64"; "c_ulong"; "c_ulonglong"; "c_ushort"; "c_void_p"; "calibrate"; "cast"; "cdll"; "changeLogLevel"; "child"; "clock_t";
   "close"; "copies"; "copy"; "cptrace"; "cpu"; "cpu_info"; "createChild"; "create_string_buffer"; "ctypes"; "ctypes.util"; "ctypes_libc"; "ctypes_tools"; "datetime"; "debugger";
   "devnull"; "dirname"; "disasm"; "disassemble"; "disassembleOne"; "distorm"; "distorm3"; "dumpProcessInfo"; "dumpRegs"; "dup2"; "enableEchoMode"; "errno"; "error"; "errorcode";
   "evalFaultAddress"; "exc_info"; "execvp"; "execvpe"; "exit"; "extractRegisters"; "fcntl"; "findDerefSize"; "findMappings"; "find_library"; "fork"; "formatAccessMode";
   "formatAddress"; "formatAddressRange"; "formatAscii"; "formatBits"; "formatCloneFlags"; "formatDirFd"; "formatError"; "formatHexa"; "formatMmapProt"; "formatOpenFlags";
   "formatOpenMode"; "formatOptVal"; "formatProcessStatus"; "formatSockaddr"; "formatSockaddrIn6Struct"; "formatSockaddrInStruct"; "formatSocketType"; "formatUintHex16";
   "formatUintHex32"; "formatUintHex64"; "formatWordHex"; "format_exception"; "fpreg"; "freebsd_constants"; "freebsd_struct"; "freebsd_syscall"; "func"; "func_arg"; "func_call";
   "getBacktrace"; "getBacktraceFrame"; "getLogFunc"; "getLogger"; "getPointers"; "getSignalNames"; "getSystemBoot"; "getUptime"; "get_errno"; "getcwd"; "getenv"; "getpagesize";
   "getpid"; "i386"; "in6_addr"; "in6_addr.__repr__"; "in_addr"; "in_addr.__repr__"; "inet_ntoa"; "info"; "int2uint"; "int2uint32"; "int2uint64"; "int32_t"; "int64_t";
   "internal_decode"; "inverseDict"; "io"; "ioctl"; "iovec_struct"; "ip_int2str"; "isabs"; "iterBits"; "join"; "kill"; "libc"; "linkage"; "linux"; "linux_constants"; "linux_proc";
   "linux_struct"; "listdir"; "locateProgram"; "logging"; "logging_tools"; "long2ulong"; "main"; "memory_mapping"; "minmax"; "mockup"; "names"; "new_utsname"; "normpath";
   "ntoh_uint"; "ntoh_ushort"; "openProc"; "openbsd_struct"; "optparse"; "orig"; "os"; "os.path"; "os_tools"; "pack"; "parseExpression"; "parse_expr"; "path_join"; "pathsep";
   "pickle"; "pid_t"; "pipe"; "platform"; "playWithProcess"; "pollfd"; "posix_arg"; "posix_constants"; "powerpc32"; "powerpc64"; "process"; "process_error"; "process_event";
   "process_tools"; "profile"; "profiler"; "prototypes"; "pstats"; "ptrace_attach"; "ptrace_cont"; "ptrace_detach"; "ptrace_geteventmsg"; "ptrace_getfpregs"; "ptrace_getfpxregs";
   "ptrace_getregs"; "ptrace_getsiginfo"; "ptrace_io"; "ptrace_io_desc"; "ptrace_kill"; "ptrace_peekdata"; "ptrace_peektext"; "ptrace_peekuser"; "ptrace_pokedata"; "ptrace_poketext";
   "ptrace_pokeuser"; "ptrace_registers_t"; "ptrace_setfpregs"; "ptrace_setfpxregs"; "ptrace_setoptions"; "ptrace_setregs"; "ptrace_setsiginfo"; "ptrace_signal"; "ptrace_singlestep";
   "ptrace_syscall"; "ptrace_traceme"; "pydistorm"; "raw_input"; "re"; "read"; "readBits"; "readProc"; "readProcessCmdline"; "readProcessLink"; "readProcessMappings";
   "readProcessProc"; "readProcessProcList"; "readProcessStat"; "readProcessStatm"; "readProcesses"; "readline"; "readlink"; "ref"; "reg"; "regex"; "register_structure";
   "register_structure.__str__"; "register_t"; "replaceHexadecimal"; "resource"; "riscv32"; "riscv64"; "rlim_t"; "rlimit"; "runProfiler"; "sa_family_t"; "searchProcessByName";
   "searchProcessesByName"; "set_errno"; "set_inheritable"; "setupSocketCall"; "siginfo"; "signal"; "signalName"; "signal_reason"; "signal_to_exitcode"; "signames"; "size_t";
   "sizeof"; "sleep"; "sockaddr"; "sockaddr_in"; "sockaddr_in6"; "sockaddr_nl"; "sockaddr_un"; "socket"; "socketcall"; "socketcall_constants"; "socketcall_struct"; "stderr"; "stdin";
   "stdout"; "strerror"; "struct"; "suseconds_t"; "sys"; "syscall"; "syscall_argument"; "syscall_state"; "sysconf"; "tcgetattr"; "tcsetattr"; "terminal"; "terminalWidth"; "termios";
   "time"; "time_t"; "timedelta"; "timespec"; "timestampUNIX"; "timeval"; "tools"; "traceProgram"; "traceback"; "truncateWord"; "truncateWord32"; "truncateWord64"; "uid_t";
   "uint2int"; "uint2int32"; "uint2int64"; "uint32_t"; "uint64_t"; "ulong2long"; "uname"; "unichr"; "unlink"; "unpack"; "user_desc"; "user_fpregs_struct"; "user_fpxregs_struct";
   "user_regs_struct"; "version"; "version_info"; "waitpid"; "warning"; "weakref"; "word2bytes"; "write"; "writeBacktrace"; "writeError"; "x86_64"]%string.
Fixpoint name_index (s : string) (l : list string) (i : positive) : option positive :=
  match l with [] => None | x :: l => if String.eqb s x then Some i else name_index s l (Pos.succ i) end.
Definition name_parse (l : list byte) : option positive := name_index (string_of_list_byte l) name_table 1.
Definition name_print (n : positive) : option (list byte) :=
  match nth_error name_table (Pos.to_nat n - 1) with Some s => Some (list_byte_of_string s) | None => None end.
Declare Scope name_scope.
Delimit Scope name_scope with name.
String Notation positive name_parse name_print : name_scope.
