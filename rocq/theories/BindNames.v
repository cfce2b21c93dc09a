(** * BindNames: the names of functions, classes, methods and parameters, as numbers.
    A name written between quotation marks in the scope [pname_scope] stands for its position in this table (as in ImpNames.v). *)
From Coq Require Import List String Ascii Bool PArith Strings.Byte.
Import ListNotations.

Definition pname : Set := positive.
Definition pname_table : list string :=
   ["ptrace.binding.func.ptrace"; "command"; "pid"; "arg1"; "arg2"; "check_errno"; "ptrace.binding.func.ptrace_traceme"; "ptrace.binding.func.ptrace_attach";
     "ptrace.binding.func.ptrace_detach"; "signal"; "ptrace.binding.func._peek"; "address"; "ptrace.binding.func._poke"; "word"; "ptrace.binding.func.ptrace_peektext";
     "ptrace.binding.func.ptrace_peekdata"; "ptrace.binding.func.ptrace_peekuser"; "ptrace.binding.func.ptrace_poketext"; "ptrace.binding.func.ptrace_pokedata";
     "ptrace.binding.func.ptrace_pokeuser"; "ptrace.binding.func.ptrace_kill"; "ptrace.binding.func.WPTRACEEVENT"; "status"; "ptrace.binding.func.ptrace_setoptions"; "options";
     "ptrace.binding.func.ptrace_geteventmsg"; "ptrace.binding.func.ptrace_syscall"; "signum"; "ptrace.binding.func.ptrace_cont"; "ptrace.binding.func.ptrace_getsiginfo";
     "ptrace.binding.func.ptrace_setsiginfo"; "info"; "ptrace.binding.func.ptrace_getfpregs"; "ptrace.binding.func.ptrace_setfpregs"; "fpregs";
     "ptrace.binding.func.ptrace_getfpxregs"; "ptrace.binding.func.ptrace_setfpxregs"; "fpxregs"; "ptrace.binding.func.ptrace_getregs"; "ptrace.binding.func.ptrace_setregs";
     "regs"; "ptrace.binding.func.ptrace_singlestep"; "ptrace.binding.func.ptrace_io"; "io_desc"; "ptrace.ctypes_tools.int2uint64"; "value"; "ptrace.ctypes_tools.uint2int64";
     "ptrace.ctypes_tools.truncateWord32"; "ptrace.ctypes_tools.truncateWord64"; "ptrace.ctypes_tools.formatUintHex16"; "ptrace.ctypes_tools.formatUintHex32";
     "ptrace.ctypes_tools.formatUintHex64"; "ptrace.ctypes_tools.int2uint32"; "ptrace.ctypes_tools.uint2int32"; "ptrace.ctypes_tools.formatAddress";
     "ptrace.ctypes_tools.formatAddressRange"; "start"; "end"; "ptrace.ctypes_tools.ntoh_ushort"; "ptrace.ctypes_tools.ntoh_uint"; "ptrace.ctypes_tools.word2bytes";
     "ptrace.ctypes_tools.bytes2word"; "bytes"; "ptrace.ctypes_tools.bytes2type"; "type"; "ptrace.ctypes_tools.bytes2array"; "basetype"; "size";
     "ptrace.debugger.backtrace.getBacktrace"; "process"; "max_args"; "max_depth"; "ptrace.debugger.backtrace.getBacktraceFrame"; "ip"; "fp"; "nargs";
     "ptrace.debugger.child._set_cloexec_flag"; "fd"; "ptrace.debugger.child._waitpid_no_intr"; "ptrace.debugger.child._read_no_intr"; "buffersize";
     "ptrace.debugger.child._write_no_intr"; "s"; "ptrace.debugger.child._createParent"; "errpipe_read"; "ptrace.debugger.child._createChild"; "arguments"; "no_stdout"; "env";
     "errpipe_write"; "close_fds"; "pass_fds"; "ptrace.debugger.child._execChild"; "ptrace.debugger.child.createChild"; "ptrace.debugger.memory_mapping.readProcessMappings";
     "ptrace.debugger.parse_expr.replaceHexadecimal"; "ptrace.debugger.parse_expr.parseExpression"; "text"; "ptrace.debugger.parse_expr.readRegister";
     "ptrace.debugger.ptrace_signal.findDerefSize"; "match"; "ptrace.debugger.ptrace_signal.evalFaultAddress"; "ptrace.debugger.signal_reason.extractRegisters"; "instr";
     "ptrace.debugger.signal_reason.findMappings"; "addresses"; "ptrace.disasm.disassemble"; "code"; "ptrace.disasm.disassembleOne"; "ptrace.error.writeBacktrace"; "logger";
     "log_level"; "ptrace.error.formatError"; "error"; "ptrace.error.writeError"; "title"; "ptrace.linux_proc.openProc"; "path"; "ptrace.linux_proc.readProc";
     "ptrace.linux_proc.readProcessProc"; "key"; "ptrace.linux_proc.readProcessStat"; "ptrace.linux_proc.readProcessStatm"; "ptrace.linux_proc.readProcessProcList";
     "ptrace.linux_proc.readProcessLink"; "ptrace.linux_proc.readProcesses"; "ptrace.linux_proc.readProcessCmdline"; "escape_stat"; "ptrace.linux_proc.searchProcessesByName";
     "process_name"; "ptrace.linux_proc.searchProcessByName"; "ptrace.linux_proc.getUptime"; "ptrace.linux_proc.getSystemBoot"; "ptrace.logging_tools.getLogFunc"; "level";
     "ptrace.logging_tools.changeLogLevel"; "delta"; "ptrace.process_tools.dumpProcessInfo"; "log"; "max_length"; "ptrace.process_tools.formatProcessStatus";
     "ptrace.profiler.calibrate"; "n"; "ptrace.profiler.runProfiler"; "func"; "args"; "kw"; "verbose"; "nb_func"; "sort_by"; "nb_cal"; "ptrace.pydistorm.Decode"; "codeOffset";
     "dt"; "ptrace.signames.getSignalNames"; "ptrace.signames.signalName"; "ptrace.syscall.posix_arg.formatMmapProt"; "argument"; "ptrace.syscall.posix_arg.formatAccessMode";
     "ptrace.syscall.posix_arg.formatOpenFlags"; "ptrace.syscall.posix_arg.formatOpenMode"; "ptrace.syscall.posix_arg.formatCloneFlags"; "ptrace.syscall.posix_arg.formatDirFd";
     "ptrace.syscall.socketcall.formatOptVal"; "ptrace.syscall.socketcall.formatSockaddr"; "argtype"; "ptrace.syscall.socketcall.setupSocketCall"; "function"; "socketcall";
     "ptrace.syscall.socketcall.formatSockaddrInStruct"; "name"; "ptrace.syscall.socketcall.formatSockaddrIn6Struct"; "ptrace.syscall.socketcall_constants.formatSocketType";
     "ptrace.syscall.socketcall_struct.ip_int2str"; "ptrace.syscall.syscall_argument.iterBits"; "data"; "ptrace.syscall.syscall_argument.formatter";
     "ptrace.terminal._terminalSize"; "ptrace.terminal.terminalWidth"; "ptrace.terminal.enableEchoMode"; "ptrace.tools.dumpRegs"; "ptrace.tools.readBits"; "bitmasks";
     "ptrace.tools.formatBits"; "empty_text"; "format_value"; "ptrace.tools.timestampUNIX"; "is_local"; "ptrace.tools.locateProgram"; "program"; "ptrace.tools.minmax";
     "min_value"; "max_value"; "ptrace.tools.inverseDict"; "ptrace.tools.signal_to_exitcode"; "gdb.formatAscii"; "gdb.asciiChar"; "byte"; "gdb.formatHexa"; "gdb.getPointers";
     "gdb.readHexadecimal"; "runtests.load_module"; "modname"; "sourcefile"; "runtests.load_modules"; "basedir"; "suffix"; "runtests.list_dir"; "prefix"; "dir";
     "runtests.runtests"; "test_doc.testDoc"; "filename"; "test_doc.importModule"; "test_doc.testModule"; "test_doc.main"; "setup_cptrace.main";
     "examples.simple_dbg.playWithProcess"; "examples.simple_dbg.traceProgram"; "examples.simple_dbg.main"; "register_structure"; "__str__"; "self"; "user_regs_struct";
     "user_fpregs_struct"; "user_fpxregs_struct"; "Application"; "__init__"; "_setupLog"; "processOptions"; "createLogOptions"; "parser"; "createChild"; "setupDebugger";
     "createProcess"; "createCommonOptions"; "BacktraceFrame"; "Backtrace"; "append"; "frame"; "__iter__"; "__len__"; "Breakpoint"; "desinstall"; "set_ip"; "__del__";
     "PtraceError"; "DebuggerError"; "PtraceDebugger"; "addProcess"; "is_attached"; "parent"; "is_thread"; "quit"; "_waitpid"; "wanted_pid"; "blocking"; "_wait_event_pid";
     "_wait_event"; "waitProcessEvent"; "waitSignals"; "waitSyscall"; "deleteProcess"; "traceFork"; "traceExec"; "traceClone"; "enableSysgood"; "__getitem__"; "MemoryMapping";
     "permissions"; "offset"; "major_device"; "minor_device"; "inode"; "pathname"; "__contains__"; "search"; "bytestr"; "PtraceProcess"; "debugger"; "isTraced"; "attach";
     "dumpCode"; "stop"; "manage_bp"; "_dumpCode"; "disassemble"; "nb_instr"; "disassembleOne"; "findStack"; "detach"; "_notRunning"; "kill"; "terminate"; "wait_exit";
     "waitExit"; "processStatus"; "processTerminated"; "processExited"; "processKilled"; "processSignal"; "ptraceEvent"; "event"; "getregs"; "getreg"; "setregs"; "setreg";
     "singleStep"; "filterSignal"; "syscall"; "setInstrPointer"; "getInstrPointer"; "getStackPointer"; "getFramePointer"; "_readBytes"; "readWord"; "readBytes"; "getsiginfo";
     "writeBytes"; "readStruct"; "struct"; "readArray"; "count"; "readCString"; "max_size"; "chunk_length"; "dumpStack"; "_dumpStack"; "readMappings"; "dumpMaps"; "writeWord";
     "dumpRegs"; "cont"; "setoptions"; "waitEvent"; "findBreakpoint"; "createBreakpoint"; "getBacktrace"; "removeBreakpoint"; "breakpoint"; "__repr__"; "__hash__";
     "notImplementedError"; "ProcessError"; "message"; "ProcessEvent"; "ProcessExit"; "exitcode"; "ProcessExecution"; "NewProcessEvent"; "ProcessSignal"; "_analyze";
     "getInstruction"; "memoryFaultInstr"; "fault_address"; "movsInstr"; "getSignalInfo"; "memoryFault"; "mathError"; "childExit"; "display"; "SignalInfo"; "registers";
     "displayExtra"; "DivisionByZero"; "Abort"; "StackOverflow"; "stack_ptr"; "stack_map"; "InvalidMemoryAccess"; "InvalidRead"; "InvalidWrite"; "InstructionError"; "ChildExit";
     "uid"; "SyscallState"; "enter"; "exit"; "clear"; "Instruction"; "errno"; "FunctionArgument"; "index"; "getText"; "format"; "createText"; "formatPointer";
     "formatStructValue"; "FunctionCallOptions"; "write_types"; "write_argname"; "replace_socketcall"; "string_max_length"; "write_address"; "max_array_count"; "FunctionCall";
     "argument_class"; "addArgument"; "clearArguments"; "ProcessState"; "stat"; "FakeProcess"; "_WString"; "_DecodedInst"; "PtraceSyscall"; "readSyscall"; "readArgumentValues";
     "readArguments"; "argument_values"; "in_addr"; "in6_addr"; "SyscallArgument"; "formatValuePointer"; "readBits"; "readString"; "readCStringArray"; "Gdb"; "setupLog";
     "parseOptions"; "_continueProcess"; "readRegister"; "parseInteger"; "parseIntegers"; "parseBytes"; "addFollowTerm"; "showFollowTerms"; "_xray"; "xray"; "execute";
     "parseSignum"; "print_"; "gcore"; "hexdump"; "backtrace"; "where"; "procInfo"; "procList"; "set"; "displayInstr"; "attachProcess"; "step"; "enter_call"; "newProcess";
     "syscallTrace"; "until"; "switch"; "switchProcess"; "nextProcess"; "displayBreakpoints"; "displaySignals"; "readInstrSize"; "default_size"; "delete"; "help";
     "processExecution"; "debuggerInfo"; "interrupt"; "restoreTerminal"; "mainLoop"; "runDebugger"; "main"; "SyscallTracer"; "ignoreSyscall"; "displaySyscall"; "prepareProcess";
     "_main"; "TestsFinder"; "testsdir"; "includes"; "excludes"; "find_available_tests"; "load_tests"; "TestResult"; "stream"; "descriptions"; "verbosity"; "startTest"; "test";
     "addSuccess"; "TestRunner"; "run"; "Tracer"; "TestGdb"; "run_command"; "check_stdout"; "pattern"; "stdout"; "test_proc"; "test_print"; "test_where"; "test_regs";
     "test_backtrace"; "test_maps"; "test_dbginfo"; "TestStrace"; "strace"; "assert_syscall"; "regex"; "test_basic"; "test_exitcode"; "test_exitsignal"; "test_getcwd";
     "test_open"; "test_chdir"; "test_rename"; "test_link"; "test_symlink"; "test_socket"; "no_such_name"; "a"; "b"; "c"; "x"]%string.
Fixpoint pname_index (s : string) (l : list string) (i : positive) : option positive :=
  match l with [] => None | x :: l => if String.eqb s x then Some i else pname_index s l (Pos.succ i) end.
Definition pname_parse (l : list byte) : option positive := pname_index (string_of_list_byte l) pname_table 1.
Definition pname_print (n : positive) : option (list byte) :=
  match nth_error pname_table (Pos.to_nat n - 1) with Some s => Some (list_byte_of_string s) | None => None end.
Declare Scope pname_scope.
Delimit Scope pname_scope with pname.
String Notation positive pname_parse pname_print : pname_scope.
