(** * AttrNames: the names of classes, attributes, methods and flags, as numbers.
    A name written between quotation marks in the scope [attr_scope] stands for its position in this table (as in ImpNames.v). *)
From Coq Require Import List String Ascii Bool PArith Strings.Byte.
Import ListNotations.

Definition attr : Set := positive.
Definition attr_table : list string :=
   ["Exception"; "args"; "with_traceback"; "__class__"; "RuntimeError"; "Structure"; "_fields_"; "Union"; "object"; "__dict__"; "__doc__"; "unittest.TestCase"; "assertEqual"; "assertTrue";
     "assertIsNone"; "fail"; "unittest.TextTestResult"; "showAll"; "stream"; "getDescription"; "startTest"; "addSuccess"; "unittest.TextTestRunner"; "resultclass"; "run"; "__init__";
     "errno"; "pid"; "PtraceError"; "function"; "index"; "options"; "value"; "type"; "name"; "text"; "getText"; "createText"; "format"; "formatPointer"; "readStruct"; "formatStructValue";
     "readArray"; "__repr__"; "FunctionArgument"; "write_address"; "write_types"; "write_argname"; "replace_socketcall"; "string_max_length"; "max_array_count"; "instr_pointer";
     "FunctionCallOptions"; "arguments"; "restype"; "resvalue"; "argument_class"; "addArgument"; "clearArguments"; "__getitem__"; "FunctionCall"; "ProcError"; "STATE_NAMES"; "program";
     "state"; "ppid"; "pgrp"; "session"; "tty_nr"; "tpgid"; "utime"; "stime"; "starttime"; "ProcessState"; "address"; "size"; "hexa"; "__str__"; "Instruction"; "regs"; "setreg"; "getreg";
     "FakeProcess"; "pos"; "p"; "_WString"; "mnemonic"; "operands"; "instructionHex"; "offset"; "_DecodedInst"; "register_structure"; "user_regs_struct"; "user_fpregs_struct";
     "user_fpxregs_struct"; "ip"; "BacktraceFrame"; "frames"; "truncated"; "append"; "__iter__"; "__len__"; "Backtrace"; "_installed"; "process"; "old_bytes"; "desinstall"; "__del__";
     "Breakpoint"; "ChildError"; "ChildPtraceError"; "ProcessError"; "_process"; "start"; "end"; "permissions"; "major_device"; "minor_device"; "inode"; "pathname"; "__contains__"; "search";
     "MemoryMapping"; "ProcessEvent"; "signum"; "exitcode"; "ProcessExit"; "ProcessExecution"; "NewProcessEvent"; "reason"; "_analyze"; "memoryFault"; "mathError"; "childExit";
     "getInstruction"; "HAS_DISASSEMBLER"; "memoryFaultInstr"; "movsInstr"; "getSignalInfo"; "RUNNING_LINUX"; "display"; "ProcessSignal"; "instr"; "registers"; "mappings"; "displayExtra";
     "SignalInfo"; "DivisionByZero"; "Abort"; "stack_ptr"; "stack_map"; "StackOverflow"; "NAME"; "PREFIX"; "PREFIX_ADDR"; "InvalidMemoryAccess"; "InvalidRead"; "InvalidWrite";
     "InstructionError"; "status"; "uid"; "ChildExit"; "DebuggerError"; "dict"; "list"; "trace_fork"; "trace_exec"; "trace_clone"; "use_sysgood"; "enableSysgood"; "addProcess";
     "HAS_PTRACE_EVENTS"; "quit"; "_waitpid"; "_wait_event_pid"; "_wait_event"; "waitProcessEvent"; "waitSignals"; "waitSyscall"; "deleteProcess"; "traceFork"; "traceExec"; "traceClone";
     "PtraceDebugger"; "debugger"; "breakpoints"; "running"; "exited"; "parent"; "was_attached"; "is_attached"; "is_stopped"; "is_thread"; "attach"; "HAS_PROC"; "read_mem_file";
     "syscall_state"; "isTraced"; "notImplementedError"; "dumpCode"; "getInstrPointer"; "_dumpCode"; "readBytes"; "disassembleOne"; "disassemble"; "findStack"; "readMappings"; "detach";
     "_notRunning"; "kill"; "terminate"; "cont"; "waitExit"; "waitEvent"; "processStatus"; "processExited"; "processKilled"; "ptraceEvent"; "processSignal"; "processTerminated";
     "RUNNING_BSD"; "getregs"; "HAS_PTRACE_GETREGSET"; "HAS_PTRACE_GETREGS"; "setregs"; "singleStep"; "HAS_PTRACE_SINGLESTEP"; "filterSignal"; "syscall"; "setInstrPointer";
     "getStackPointer"; "getFramePointer"; "_readBytes"; "readWord"; "HAS_PTRACE_IO"; "getsiginfo"; "HAS_PTRACE_SIGINFO"; "writeBytes"; "writeWord"; "readCString"; "dumpStack"; "_dumpStack";
     "dumpMaps"; "dumpRegs"; "setoptions"; "findBreakpoint"; "createBreakpoint"; "getBacktrace"; "removeBreakpoint"; "__hash__"; "PtraceProcess"; "ignore_exec_trap"; "ignore_callback";
     "clear"; "event"; "next_event"; "exit"; "enter"; "SyscallState"; "s_addr"; "in_addr"; "addr8"; "addr16"; "addr32"; "in6_addr"; "readCStringArray"; "readString"; "formatValuePointer";
     "readBits"; "SyscallArgument"; "result"; "result_text"; "readSyscall"; "readArgumentValues"; "readArguments"; "CPU_X86_64"; "CPU_ARM32"; "CPU_AARCH64"; "CPU_RISCV"; "CPU_I386";
     "CPU_POWERPC"; "PtraceSyscall"; "_setupLog"; "processOptions"; "createLogOptions"; "createChild"; "setupDebugger"; "createProcess"; "createCommonOptions"; "Application"; "parseOptions";
     "setupLog"; "_output"; "only"; "ignore_regex"; "ignoreSyscall"; "displaySyscall"; "syscallTrace"; "prepareProcess"; "newProcess"; "processExecution"; "syscall_options"; "runDebugger";
     "main"; "_main"; "SyscallTracer"; "last_signal"; "breaks"; "followterms"; "show_pid"; "_continueProcess"; "readRegister"; "parseInteger"; "parseIntegers"; "parseBytes"; "addFollowTerm";
     "showFollowTerms"; "_xray"; "xray"; "execute"; "procInfo"; "procList"; "attachProcess"; "gcore"; "backtrace"; "where"; "debuggerInfo"; "step"; "help"; "set"; "until"; "switch";
     "breakpoint"; "displayBreakpoints"; "displaySignals"; "delete"; "hexdump"; "signal"; "print_"; "parseSignum"; "displayInstr"; "switchProcess"; "readInstrSize"; "nextProcess";
     "interrupt"; "restoreTerminal"; "mainLoop"; "invite"; "previous_command"; "Gdb"; "Tracer"; "_testsdir"; "_includes"; "_excludes"; "find_available_tests"; "_test_factories";
     "load_tests"; "TestsFinder"; "leaks"; "TestResult"; "TestRunner"; "strace"; "assert_syscall"; "test_basic"; "test_exitcode"; "test_exitsignal"; "test_getcwd"; "test_open"; "test_chdir";
     "test_rename"; "test_link"; "test_symlink"; "test_socket"; "TestStrace"; "run_command"; "check_stdout"; "test_proc"; "test_print"; "test_where"; "test_regs"; "test_backtrace";
     "test_maps"; "test_dbginfo"; "TestGdb"; "no_such_name"]%string.
Fixpoint attr_index (s : string) (l : list string) (i : positive) : option positive :=
  match l with [] => None | x :: l => if String.eqb s x then Some i else attr_index s l (Pos.succ i) end.
Definition attr_parse (l : list byte) : option positive := attr_index (string_of_list_byte l) attr_table 1.
Definition attr_print (n : positive) : option (list byte) :=
  match nth_error attr_table (Pos.to_nat n - 1) with Some s => Some (list_byte_of_string s) | None => None end.
Declare Scope attr_scope.
Delimit Scope attr_scope with attr.
String Notation positive attr_parse attr_print : attr_scope.
