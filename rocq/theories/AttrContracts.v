(** * AttrContracts: the contracts of the methods, for the proofs about AttrCode.v (see AttrCheck.v). *)
From Coq Require Import List Bool.
From Verif Require Import AttrNames AttrModel AttrCode AttrSpec AttrCheck.
Import ListNotations.
Open Scope attr_scope.

Definition contracts_PtraceError  : list contract :=
  let full : env := ["errno"; "pid"] in
    [
     ("PtraceError", "__init__", ([], full))].
Definition contracts_FunctionArgument  : list contract :=
  let full : env := ["function"; "index"; "name"; "options"; "text"; "type"; "value"] in
    [
     ("FunctionArgument", "__init__", ([], full));
     ("FunctionArgument", "__repr__", (full, full));
     ("FunctionArgument", "createText", (full, full));
     ("FunctionArgument", "format", (full, full));
     ("FunctionArgument", "formatPointer", (full, full));
     ("FunctionArgument", "formatStructValue", (full, full));
     ("FunctionArgument", "getText", (full, full));
     ("FunctionArgument", "readArray", (full, full));
     ("FunctionArgument", "readStruct", (full, full))].
Definition contracts_FunctionCallOptions  : list contract :=
  let full : env := ["instr_pointer"; "max_array_count"; "replace_socketcall"; "string_max_length"; "write_address"; "write_argname"; "write_types"] in
    [
     ("FunctionCallOptions", "__init__", ([], full))].
Definition contracts_FunctionCall  : list contract :=
  let full : env := ["argument_class"; "arguments"; "name"; "options"; "restype"; "resvalue"] in
    [
     ("FunctionCall", "__init__", ([], full));
     ("FunctionCall", "__getitem__", (full, full));
     ("FunctionCall", "__repr__", (full, full));
     ("FunctionCall", "addArgument", (full, full));
     ("FunctionCall", "clearArguments", (full, full));
     ("FunctionCall", "format", (full, full))].
Definition contracts_ProcError  : list contract :=
  let full : env := [] in
    [
].
Definition contracts_ProcessState  : list contract :=
  let full : env := ["pgrp"; "pid"; "ppid"; "program"; "session"; "starttime"; "state"; "stime"; "tpgid"; "tty_nr"; "utime"] in
    [
     ("ProcessState", "__init__", ([], full))].
Definition contracts_Instruction  : list contract :=
  let full : env := ["address"; "hexa"; "size"; "text"] in
    [
     ("Instruction", "__init__", ([], full));
     ("Instruction", "__str__", (full, full))].
Definition contracts_FakeProcess  : list contract :=
  let full : env := ["regs"] in
    [
     ("FakeProcess", "__init__", ([], full));
     ("FakeProcess", "getreg", (full, full));
     ("FakeProcess", "setreg", (full, full))].
Definition contracts__WString  : list contract :=
  let full : env := [] in
    [
     ("_WString", "__str__", (full, full))].
Definition contracts__DecodedInst  : list contract :=
  let full : env := [] in
    [
     ("_DecodedInst", "__str__", (full, full))].
Definition contracts_register_structure  : list contract :=
  let full : env := [] in
    [
     ("register_structure", "__str__", (full, full))].
Definition contracts_user_regs_struct  : list contract :=
  let full : env := [] in
    [
     ("user_regs_struct", "__str__", (full, full))].
Definition contracts_user_fpregs_struct  : list contract :=
  let full : env := [] in
    [
     ("user_fpregs_struct", "__str__", (full, full))].
Definition contracts_user_fpxregs_struct  : list contract :=
  let full : env := [] in
    [
     ("user_fpxregs_struct", "__str__", (full, full))].
Definition contracts_BacktraceFrame  : list contract :=
  let full : env := ["arguments"; "ip"; "name"] in
    [
     ("BacktraceFrame", "__init__", ([], full));
     ("BacktraceFrame", "__str__", (full, full))].
Definition contracts_Backtrace  : list contract :=
  let full : env := ["frames"; "truncated"] in
    [
     ("Backtrace", "__init__", ([], full));
     ("Backtrace", "__iter__", (full, full));
     ("Backtrace", "__len__", (full, full));
     ("Backtrace", "append", (full, full))].
Definition contracts_Breakpoint  : list contract :=
  let full : env := ["_installed"; "address"; "old_bytes"; "process"; "size"] in
    [
     ("Breakpoint", "__init__", ([], full));
     ("Breakpoint", "__del__", (full, full));
     ("Breakpoint", "__str__", (full, full));
     ("Breakpoint", "desinstall", (full, full))].
Definition contracts_ChildError  : list contract :=
  let full : env := [] in
    [
].
Definition contracts_ChildPtraceError  : list contract :=
  let full : env := [] in
    [
].
Definition contracts_ProcessError  : list contract :=
  let full : env := ["errno"; "pid"; "process"] in
    [
     ("ProcessError", "__init__", ([], full));
     ("PtraceError", "__init__", ([], ["errno"; "pid"]))].
Definition contracts_MemoryMapping  : list contract :=
  let full : env := ["_process"; "end"; "inode"; "major_device"; "minor_device"; "offset"; "pathname"; "permissions"; "start"] in
    [
     ("MemoryMapping", "__init__", ([], full));
     ("MemoryMapping", "__contains__", (full, full));
     ("MemoryMapping", "__repr__", (full, full));
     ("MemoryMapping", "__str__", (full, full));
     ("MemoryMapping", "search", (full, full))].
Definition contracts_ProcessEvent  : list contract :=
  let full : env := ["process"] in
    [
     ("ProcessEvent", "__init__", ([], full))].
Definition contracts_ProcessExit  : list contract :=
  let full : env := ["exitcode"; "process"; "signum"] in
    [
     ("ProcessEvent", "__init__", ([], ["process"]));
     ("ProcessExit", "__init__", ([], full))].
Definition contracts_ProcessExecution  : list contract :=
  let full : env := ["process"] in
    [
     ("ProcessEvent", "__init__", ([], full));
     ("ProcessExecution", "__init__", ([], full))].
Definition contracts_NewProcessEvent  : list contract :=
  let full : env := ["process"] in
    [
     ("NewProcessEvent", "__init__", ([], full));
     ("ProcessEvent", "__init__", ([], full))].
Definition contracts_ProcessSignal  : list contract :=
  let full : env := ["name"; "process"; "reason"; "signum"] in
    [
     ("ProcessEvent", "__init__", (["name"], ["name"; "process"]));
     ("ProcessSignal", "__init__", ([], full));
     ("ProcessSignal", "_analyze", (full, full));
     ("ProcessSignal", "childExit", (full, full));
     ("ProcessSignal", "display", (full, full));
     ("ProcessSignal", "getInstruction", (full, full));
     ("ProcessSignal", "getSignalInfo", (full, full));
     ("ProcessSignal", "mathError", (full, full));
     ("ProcessSignal", "memoryFault", (full, full));
     ("ProcessSignal", "memoryFaultInstr", (full, full));
     ("ProcessSignal", "movsInstr", (full, full))].
Definition contracts_SignalInfo  : list contract :=
  let full : env := ["instr"; "mappings"; "name"; "registers"; "text"] in
    [
     ("SignalInfo", "__init__", ([], full));
     ("SignalInfo", "display", (full, full));
     ("SignalInfo", "displayExtra", (full, full))].
Definition contracts_DivisionByZero  : list contract :=
  let full : env := ["instr"; "mappings"; "name"; "registers"; "text"] in
    [
     ("DivisionByZero", "__init__", ([], full));
     ("SignalInfo", "__init__", ([], full));
     ("DivisionByZero", "display", (full, full));
     ("DivisionByZero", "displayExtra", (full, full))].
Definition contracts_Abort  : list contract :=
  let full : env := ["instr"; "mappings"; "name"; "registers"; "text"] in
    [
     ("Abort", "__init__", ([], full));
     ("SignalInfo", "__init__", ([], full));
     ("Abort", "display", (full, full));
     ("Abort", "displayExtra", (full, full))].
Definition contracts_StackOverflow  : list contract :=
  let full : env := ["instr"; "mappings"; "name"; "registers"; "stack_map"; "stack_ptr"; "text"] in
    [
     ("SignalInfo", "__init__", ([], ["instr"; "mappings"; "name"; "registers"; "text"]));
     ("StackOverflow", "__init__", ([], full));
     ("StackOverflow", "display", (full, full));
     ("StackOverflow", "displayExtra", (full, full))].
Definition contracts_InvalidMemoryAccess  : list contract :=
  let full : env := ["instr"; "mappings"; "name"; "registers"; "text"] in
    [
     ("InvalidMemoryAccess", "__init__", ([], full));
     ("SignalInfo", "__init__", ([], full));
     ("InvalidMemoryAccess", "display", (full, full));
     ("InvalidMemoryAccess", "displayExtra", (full, full))].
Definition contracts_InvalidRead  : list contract :=
  let full : env := ["instr"; "mappings"; "name"; "registers"; "text"] in
    [
     ("InvalidRead", "__init__", ([], full));
     ("SignalInfo", "__init__", ([], full));
     ("InvalidRead", "display", (full, full));
     ("InvalidRead", "displayExtra", (full, full))].
Definition contracts_InvalidWrite  : list contract :=
  let full : env := ["instr"; "mappings"; "name"; "registers"; "text"] in
    [
     ("InvalidWrite", "__init__", ([], full));
     ("SignalInfo", "__init__", ([], full));
     ("InvalidWrite", "display", (full, full));
     ("InvalidWrite", "displayExtra", (full, full))].
Definition contracts_InstructionError  : list contract :=
  let full : env := ["instr"; "mappings"; "name"; "registers"; "text"] in
    [
     ("InstructionError", "__init__", ([], full));
     ("SignalInfo", "__init__", ([], full));
     ("InstructionError", "display", (full, full));
     ("InstructionError", "displayExtra", (full, full))].
Definition contracts_ChildExit  : list contract :=
  let full : env := ["instr"; "mappings"; "name"; "pid"; "registers"; "status"; "text"; "uid"] in
    [
     ("ChildExit", "__init__", ([], full));
     ("SignalInfo", "__init__", ([], ["instr"; "mappings"; "name"; "registers"; "text"]));
     ("ChildExit", "display", (full, full));
     ("ChildExit", "displayExtra", (full, full))].
Definition contracts_DebuggerError  : list contract :=
  let full : env := ["errno"; "pid"] in
    [
     ("DebuggerError", "__init__", ([], full))].
Definition contracts_PtraceDebugger  : list contract :=
  let full : env := ["dict"; "list"; "options"; "trace_clone"; "trace_exec"; "trace_fork"; "use_sysgood"] in
    [
     ("PtraceDebugger", "__init__", ([], full));
     ("PtraceDebugger", "__getitem__", (full, full));
     ("PtraceDebugger", "__iter__", (full, full));
     ("PtraceDebugger", "__len__", (full, full));
     ("PtraceDebugger", "_wait_event", (full, full));
     ("PtraceDebugger", "_wait_event_pid", (full, full));
     ("PtraceDebugger", "_waitpid", (full, full));
     ("PtraceDebugger", "addProcess", (full, full));
     ("PtraceDebugger", "deleteProcess", (full, full));
     ("PtraceDebugger", "enableSysgood", (full, full));
     ("PtraceDebugger", "quit", (full, full));
     ("PtraceDebugger", "traceClone", (full, full));
     ("PtraceDebugger", "traceExec", (full, full));
     ("PtraceDebugger", "traceFork", (full, full));
     ("PtraceDebugger", "waitProcessEvent", (full, full));
     ("PtraceDebugger", "waitSignals", (full, full));
     ("PtraceDebugger", "waitSyscall", (full, full))].
Definition contracts_PtraceProcess (has_proc : bool) (has_ptrace_io : bool) : list contract :=
  let full : env := ["breakpoints"; "debugger"; "exited"; "is_attached"; "is_stopped"; "is_thread"; "parent"; "pid"; "running"; "syscall_state"; "was_attached"] ++ (if has_proc then ["read_mem_file"] else []) in
    [
     ("PtraceProcess", "__init__", ([], full));
     ("PtraceProcess", "__del__", (full, full));
     ("PtraceProcess", "__hash__", (full, full));
     ("PtraceProcess", "__repr__", (full, full));
     ("PtraceProcess", "__str__", (full, full));
     ("PtraceProcess", "_dumpCode", (full, full));
     ("PtraceProcess", "_dumpStack", (full, full));
     ("PtraceProcess", "_notRunning", (full, full));
     ("PtraceProcess", "_readBytes", (full, full));
     ("PtraceProcess", "attach", (["breakpoints"; "debugger"; "exited"; "is_attached"; "is_stopped"; "is_thread"; "parent"; "pid"; "running"; "was_attached"], ["breakpoints"; "debugger";
       "exited"; "is_attached"; "is_stopped"; "is_thread"; "parent"; "pid"; "running"; "was_attached"]));
     ("PtraceProcess", "cont", (full, full));
     ("PtraceProcess", "createBreakpoint", (full, full));
     ("PtraceProcess", "detach", (full, full));
     ("PtraceProcess", "disassemble", (full, full));
     ("PtraceProcess", "disassembleOne", (full, full));
     ("PtraceProcess", "dumpCode", (full, full));
     ("PtraceProcess", "dumpMaps", (full, full));
     ("PtraceProcess", "dumpRegs", (full, full));
     ("PtraceProcess", "dumpStack", (full, full));
     ("PtraceProcess", "filterSignal", (full, full));
     ("PtraceProcess", "findBreakpoint", (full, full));
     ("PtraceProcess", "findStack", (full, full));
     ("PtraceProcess", "getBacktrace", (full, full));
     ("PtraceProcess", "getFramePointer", (full, full));
     ("PtraceProcess", "getInstrPointer", (full, full));
     ("PtraceProcess", "getStackPointer", (full, full));
     ("PtraceProcess", "getreg", (full, full));
     ("PtraceProcess", "getregs", (full, full));
     ("PtraceProcess", "getsiginfo", (full, full));
     ("PtraceProcess", "isTraced", (full, [] ++ (if has_proc then ["breakpoints"] else []) ++ (if has_proc then ["debugger"] else []) ++ (if has_proc then ["exited"] else []) ++ (if has_proc
       then ["is_attached"] else []) ++ (if has_proc then ["is_stopped"] else []) ++ (if has_proc then ["is_thread"] else []) ++ (if has_proc then ["parent"] else []) ++ (if has_proc then
       ["pid"] else []) ++ (if has_proc then ["read_mem_file"] else []) ++ (if has_proc then ["running"] else []) ++ (if has_proc then ["syscall_state"] else []) ++ (if has_proc then
       ["was_attached"] else [])));
     ("PtraceProcess", "kill", (full, full));
     ("PtraceProcess", "notImplementedError", (full, []));
     ("PtraceProcess", "processExited", (full, full));
     ("PtraceProcess", "processKilled", (full, full));
     ("PtraceProcess", "processSignal", (full, full));
     ("PtraceProcess", "processStatus", (full, full));
     ("PtraceProcess", "processTerminated", (full, full));
     ("PtraceProcess", "ptraceEvent", (full, full));
     ("PtraceProcess", "readArray", (full, full));
     ("PtraceProcess", "readBytes", (full, full));
     ("PtraceProcess", "readCString", (full, full));
     ("PtraceProcess", "readMappings", (full, full));
     ("PtraceProcess", "readStruct", (full, full));
     ("PtraceProcess", "readWord", (full, full));
     ("PtraceProcess", "removeBreakpoint", (full, full));
     ("PtraceProcess", "setInstrPointer", (full, full));
     ("PtraceProcess", "setoptions", (full, full));
     ("PtraceProcess", "setreg", (full, full));
     ("PtraceProcess", "setregs", (full, full));
     ("PtraceProcess", "singleStep", (full, full));
     ("PtraceProcess", "syscall", (full, full));
     ("PtraceProcess", "terminate", (full, full));
     ("PtraceProcess", "waitEvent", (full, full));
     ("PtraceProcess", "waitExit", (full, full));
     ("PtraceProcess", "waitSignals", (full, full));
     ("PtraceProcess", "waitSyscall", (full, full));
     ("PtraceProcess", "writeBytes", (full, full));
     ("PtraceProcess", "writeWord", (full, full))].
Definition contracts_SyscallState  : list contract :=
  let full : env := ["ignore_callback"; "ignore_exec_trap"; "name"; "next_event"; "process"; "syscall"] in
    [
     ("SyscallState", "__init__", ([], full));
     ("SyscallState", "clear", (["ignore_callback"; "ignore_exec_trap"; "process"], full));
     ("SyscallState", "enter", (full, full));
     ("SyscallState", "event", (full, full));
     ("SyscallState", "exit", (full, full))].
Definition contracts_in_addr  : list contract :=
  let full : env := [] in
    [
     ("in_addr", "__repr__", (full, full))].
Definition contracts_in6_addr  : list contract :=
  let full : env := [] in
    [
     ("in6_addr", "__repr__", (full, full))].
Definition contracts_SyscallArgument  : list contract :=
  let full : env := ["function"; "index"; "name"; "options"; "text"; "type"; "value"] in
    [
     ("SyscallArgument", "__init__", ([], full));
     ("SyscallArgument", "__repr__", (full, full));
     ("SyscallArgument", "createText", (full, full));
     ("SyscallArgument", "format", (full, full));
     ("SyscallArgument", "formatPointer", (full, full));
     ("SyscallArgument", "formatStructValue", (full, full));
     ("SyscallArgument", "formatValuePointer", (full, full));
     ("SyscallArgument", "getText", (full, full));
     ("SyscallArgument", "readArray", (full, full));
     ("SyscallArgument", "readBits", (full, full));
     ("SyscallArgument", "readCString", (full, full));
     ("SyscallArgument", "readCStringArray", (full, full));
     ("SyscallArgument", "readString", (full, full));
     ("SyscallArgument", "readStruct", (full, full))].
Definition contracts_PtraceSyscall  : list contract :=
  let full : env := ["argument_class"; "arguments"; "instr_pointer"; "name"; "options"; "process"; "restype"; "result"; "result_text"; "resvalue"; "syscall"] in
    [
     ("FunctionCall", "__init__", ([], ["argument_class"; "arguments"; "name"; "options"; "restype"; "resvalue"]));
     ("PtraceSyscall", "__init__", ([], full));
     ("PtraceSyscall", "__getitem__", (full, full));
     ("PtraceSyscall", "__repr__", (full, full));
     ("PtraceSyscall", "__str__", (full, full));
     ("PtraceSyscall", "addArgument", (full, full));
     ("PtraceSyscall", "clearArguments", (full, full));
     ("PtraceSyscall", "enter", (full, full));
     ("PtraceSyscall", "exit", (full, full));
     ("PtraceSyscall", "format", (full, full));
     ("PtraceSyscall", "readArgumentValues", (full, full));
     ("PtraceSyscall", "readArguments", (full, full));
     ("PtraceSyscall", "readSyscall", (["argument_class"; "arguments"; "instr_pointer"; "name"; "options"; "process"; "restype"; "result"; "result_text"; "resvalue"], full))].
Definition contracts_SyscallTracer  : list contract :=
  let full : env := ["_output"; "ignore_regex"; "only"; "options"; "program"] in
    [
     ("Application", "__init__", ([], []));
     ("SyscallTracer", "__init__", ([], full));
     ("Application", "createChild", (["_output"; "debugger"; "ignore_regex"; "only"; "options"; "program"], ["_output"; "debugger"; "ignore_regex"; "only"; "options"; "program"]));
     ("SyscallTracer", "_main", (full, ["_output"; "debugger"; "ignore_regex"; "only"; "options"; "program"]));
     ("SyscallTracer", "_setupLog", (full, full));
     ("SyscallTracer", "createChild", (["_output"; "debugger"; "ignore_regex"; "only"; "options"; "program"], ["_output"; "debugger"; "ignore_regex"; "only"; "options"; "program"]));
     ("SyscallTracer", "createCommonOptions", ([], []));
     ("SyscallTracer", "createLogOptions", ([], []));
     ("SyscallTracer", "createProcess", (["_output"; "debugger"; "ignore_regex"; "only"; "options"; "program"], ["_output"; "debugger"; "ignore_regex"; "only"; "options"; "program"]));
     ("SyscallTracer", "displaySyscall", (["_output"; "debugger"; "ignore_regex"; "only"; "options"; "program"], ["_output"; "debugger"; "ignore_regex"; "only"; "options"; "program"]));
     ("SyscallTracer", "ignoreSyscall", (["_output"; "debugger"; "ignore_regex"; "only"; "options"; "program"; "syscall_options"], ["_output"; "debugger"; "ignore_regex"; "only"; "options";
       "program"; "syscall_options"]));
     ("SyscallTracer", "main", (full, full));
     ("SyscallTracer", "newProcess", (["_output"; "debugger"; "ignore_regex"; "only"; "options"; "program"; "syscall_options"], ["_output"; "debugger"; "ignore_regex"; "only"; "options";
       "program"; "syscall_options"]));
     ("SyscallTracer", "parseOptions", ([], ["ignore_regex"; "only"; "options"; "program"]));
     ("SyscallTracer", "prepareProcess", (["_output"; "debugger"; "ignore_regex"; "only"; "options"; "program"; "syscall_options"], ["_output"; "debugger"; "ignore_regex"; "only"; "options";
       "program"; "syscall_options"]));
     ("SyscallTracer", "processExecution", (["_output"; "debugger"; "ignore_regex"; "only"; "options"; "program"; "syscall_options"], ["_output"; "debugger"; "ignore_regex"; "only";
       "options"; "program"; "syscall_options"]));
     ("SyscallTracer", "processExited", (["_output"; "debugger"; "ignore_regex"; "only"; "options"; "program"], ["_output"; "debugger"; "ignore_regex"; "only"; "options"; "program"]));
     ("SyscallTracer", "processOptions", (["ignore_regex"; "only"; "options"; "program"], ["ignore_regex"; "only"; "options"; "program"]));
     ("SyscallTracer", "runDebugger", (["_output"; "debugger"; "ignore_regex"; "only"; "options"; "program"], ["_output"; "debugger"; "ignore_regex"; "only"; "options"; "program"]));
     ("SyscallTracer", "setupDebugger", (["_output"; "debugger"; "ignore_regex"; "only"; "options"; "program"], ["_output"; "debugger"; "ignore_regex"; "only"; "options"; "program"]));
     ("SyscallTracer", "setupLog", (["ignore_regex"; "only"; "options"; "program"], full));
     ("SyscallTracer", "syscall", (["_output"; "debugger"; "ignore_regex"; "only"; "options"; "program"; "syscall_options"], ["_output"; "debugger"; "ignore_regex"; "only"; "options";
       "program"; "syscall_options"]));
     ("SyscallTracer", "syscallTrace", (["_output"; "debugger"; "ignore_regex"; "only"; "options"; "program"; "syscall_options"], ["_output"; "debugger"; "ignore_regex"; "only"; "options";
       "program"; "syscall_options"]))].
Definition contracts_Gdb  : list contract :=
  let full : env := ["breaks"; "followterms"; "last_signal"; "options"; "program"; "show_pid"; "syscall_options"] in
    [
     ("Application", "__init__", ([], []));
     ("Gdb", "__init__", ([], full));
     ("Gdb", "_continueProcess", (["breaks"; "debugger"; "followterms"; "invite"; "last_signal"; "options"; "previous_command"; "process"; "program"; "show_pid"; "syscall_options"],
       ["breaks"; "debugger"; "followterms"; "invite"; "last_signal"; "options"; "previous_command"; "process"; "program"; "show_pid"; "syscall_options"]));
     ("Gdb", "_setupLog", (["options"; "program"; "show_pid"], ["options"; "program"; "show_pid"]));
     ("Gdb", "_xray", (["breaks"; "debugger"; "followterms"; "invite"; "last_signal"; "options"; "previous_command"; "process"; "program"; "show_pid"; "syscall_options"], ["breaks";
       "debugger"; "followterms"; "invite"; "last_signal"; "options"; "previous_command"; "process"; "program"; "show_pid"; "syscall_options"]));
     ("Gdb", "addFollowTerm", (["breaks"; "debugger"; "followterms"; "invite"; "last_signal"; "options"; "previous_command"; "process"; "program"; "show_pid"; "syscall_options"], ["breaks";
       "debugger"; "followterms"; "invite"; "last_signal"; "options"; "previous_command"; "process"; "program"; "show_pid"; "syscall_options"]));
     ("Gdb", "attachProcess", (["breaks"; "debugger"; "followterms"; "invite"; "last_signal"; "options"; "previous_command"; "process"; "program"; "show_pid"; "syscall_options"], ["breaks";
       "debugger"; "followterms"; "invite"; "last_signal"; "options"; "previous_command"; "process"; "program"; "show_pid"; "syscall_options"]));
     ("Gdb", "backtrace", (["breaks"; "debugger"; "followterms"; "invite"; "last_signal"; "options"; "previous_command"; "process"; "program"; "show_pid"; "syscall_options"], ["breaks";
       "debugger"; "followterms"; "invite"; "last_signal"; "options"; "previous_command"; "process"; "program"; "show_pid"; "syscall_options"]));
     ("Gdb", "breakpoint", (["breaks"; "debugger"; "followterms"; "invite"; "last_signal"; "options"; "previous_command"; "process"; "program"; "show_pid"; "syscall_options"], ["breaks";
       "debugger"; "followterms"; "invite"; "last_signal"; "options"; "previous_command"; "process"; "program"; "show_pid"; "syscall_options"]));
     ("Gdb", "cont", (["breaks"; "debugger"; "followterms"; "invite"; "last_signal"; "options"; "previous_command"; "process"; "program"; "show_pid"; "syscall_options"], ["breaks";
       "debugger"; "followterms"; "invite"; "last_signal"; "options"; "previous_command"; "process"; "program"; "show_pid"; "syscall_options"]));
     ("Gdb", "createChild", (["breaks"; "debugger"; "followterms"; "last_signal"; "options"; "program"; "show_pid"; "syscall_options"], ["breaks"; "debugger"; "followterms"; "last_signal";
       "options"; "program"; "show_pid"; "syscall_options"]));
     ("Gdb", "createCommonOptions", ([], []));
     ("Gdb", "createLogOptions", ([], []));
     ("Gdb", "createProcess", (["breaks"; "debugger"; "followterms"; "last_signal"; "options"; "program"; "show_pid"; "syscall_options"], ["breaks"; "debugger"; "followterms"; "last_signal";
       "options"; "program"; "show_pid"; "syscall_options"]));
     ("Gdb", "debuggerInfo", (["breaks"; "debugger"; "followterms"; "invite"; "last_signal"; "options"; "previous_command"; "process"; "program"; "show_pid"; "syscall_options"], ["breaks";
       "debugger"; "followterms"; "invite"; "last_signal"; "options"; "previous_command"; "process"; "program"; "show_pid"; "syscall_options"]));
     ("Gdb", "delete", (["breaks"; "debugger"; "followterms"; "invite"; "last_signal"; "options"; "previous_command"; "process"; "program"; "show_pid"; "syscall_options"], ["breaks";
       "debugger"; "followterms"; "invite"; "last_signal"; "options"; "previous_command"; "process"; "program"; "show_pid"; "syscall_options"]));
     ("Gdb", "deleteProcess", (["breaks"; "debugger"; "followterms"; "invite"; "last_signal"; "options"; "previous_command"; "process"; "program"; "show_pid"; "syscall_options"], ["breaks";
       "debugger"; "followterms"; "invite"; "last_signal"; "options"; "previous_command"; "process"; "program"; "show_pid"; "syscall_options"]));
     ("Gdb", "displayBreakpoints", (["breaks"; "debugger"; "followterms"; "invite"; "last_signal"; "options"; "previous_command"; "process"; "program"; "show_pid"; "syscall_options"],
       ["breaks"; "debugger"; "followterms"; "invite"; "last_signal"; "options"; "previous_command"; "process"; "program"; "show_pid"; "syscall_options"]));
     ("Gdb", "displayInstr", (["breaks"; "debugger"; "followterms"; "invite"; "last_signal"; "options"; "previous_command"; "process"; "program"; "show_pid"; "syscall_options"], ["breaks";
       "debugger"; "followterms"; "invite"; "last_signal"; "options"; "previous_command"; "process"; "program"; "show_pid"; "syscall_options"]));
     ("Gdb", "displaySignals", (["breaks"; "debugger"; "followterms"; "invite"; "last_signal"; "options"; "previous_command"; "process"; "program"; "show_pid"; "syscall_options"], ["breaks";
       "debugger"; "followterms"; "invite"; "last_signal"; "options"; "previous_command"; "process"; "program"; "show_pid"; "syscall_options"]));
     ("Gdb", "execute", (["breaks"; "debugger"; "followterms"; "invite"; "last_signal"; "options"; "previous_command"; "process"; "program"; "show_pid"; "syscall_options"], ["breaks";
       "debugger"; "followterms"; "invite"; "last_signal"; "options"; "previous_command"; "process"; "program"; "show_pid"; "syscall_options"]));
     ("Gdb", "gcore", (["breaks"; "debugger"; "followterms"; "invite"; "last_signal"; "options"; "previous_command"; "process"; "program"; "show_pid"; "syscall_options"], ["breaks";
       "debugger"; "followterms"; "invite"; "last_signal"; "options"; "previous_command"; "process"; "program"; "show_pid"; "syscall_options"]));
     ("Gdb", "help", (["breaks"; "debugger"; "followterms"; "invite"; "last_signal"; "options"; "previous_command"; "process"; "program"; "show_pid"; "syscall_options"], ["breaks";
       "debugger"; "followterms"; "invite"; "last_signal"; "options"; "previous_command"; "process"; "program"; "show_pid"; "syscall_options"]));
     ("Gdb", "hexdump", (["breaks"; "debugger"; "followterms"; "invite"; "last_signal"; "options"; "previous_command"; "process"; "program"; "show_pid"; "syscall_options"], ["breaks";
       "debugger"; "followterms"; "invite"; "last_signal"; "options"; "previous_command"; "process"; "program"; "show_pid"; "syscall_options"]));
     ("Gdb", "interrupt", (["breaks"; "debugger"; "followterms"; "invite"; "last_signal"; "options"; "previous_command"; "process"; "program"; "show_pid"; "syscall_options"], ["breaks";
       "debugger"; "followterms"; "invite"; "last_signal"; "options"; "previous_command"; "process"; "program"; "show_pid"; "syscall_options"]));
     ("Gdb", "main", (full, ["breaks"; "debugger"; "followterms"; "last_signal"; "options"; "process"; "program"; "show_pid"; "syscall_options"]));
     ("Gdb", "mainLoop", (["breaks"; "debugger"; "followterms"; "invite"; "last_signal"; "options"; "previous_command"; "process"; "program"; "show_pid"; "syscall_options"], ["breaks";
       "debugger"; "followterms"; "invite"; "last_signal"; "options"; "previous_command"; "process"; "program"; "show_pid"; "syscall_options"]));
     ("Gdb", "newProcess", (["breaks"; "debugger"; "followterms"; "invite"; "last_signal"; "options"; "previous_command"; "process"; "program"; "show_pid"; "syscall_options"], ["breaks";
       "debugger"; "followterms"; "invite"; "last_signal"; "options"; "previous_command"; "process"; "program"; "show_pid"; "syscall_options"]));
     ("Gdb", "nextProcess", (["breaks"; "debugger"; "followterms"; "invite"; "last_signal"; "options"; "previous_command"; "process"; "program"; "show_pid"; "syscall_options"], ["breaks";
       "debugger"; "followterms"; "invite"; "last_signal"; "options"; "previous_command"; "process"; "program"; "show_pid"; "syscall_options"]));
     ("Gdb", "parseBytes", (["breaks"; "debugger"; "followterms"; "invite"; "last_signal"; "options"; "previous_command"; "process"; "program"; "show_pid"; "syscall_options"], ["breaks";
       "debugger"; "followterms"; "invite"; "last_signal"; "options"; "previous_command"; "process"; "program"; "show_pid"; "syscall_options"]));
     ("Gdb", "parseInteger", (["breaks"; "debugger"; "followterms"; "invite"; "last_signal"; "options"; "previous_command"; "process"; "program"; "show_pid"; "syscall_options"], ["breaks";
       "debugger"; "followterms"; "invite"; "last_signal"; "options"; "previous_command"; "process"; "program"; "show_pid"; "syscall_options"]));
     ("Gdb", "parseIntegers", (["breaks"; "debugger"; "followterms"; "invite"; "last_signal"; "options"; "previous_command"; "process"; "program"; "show_pid"; "syscall_options"], ["breaks";
       "debugger"; "followterms"; "invite"; "last_signal"; "options"; "previous_command"; "process"; "program"; "show_pid"; "syscall_options"]));
     ("Gdb", "parseOptions", ([], ["options"; "program"; "show_pid"]));
     ("Gdb", "parseSignum", (["breaks"; "debugger"; "followterms"; "invite"; "last_signal"; "options"; "previous_command"; "process"; "program"; "show_pid"; "syscall_options"], ["breaks";
       "debugger"; "followterms"; "invite"; "last_signal"; "options"; "previous_command"; "process"; "program"; "show_pid"; "syscall_options"]));
     ("Gdb", "print_", (["breaks"; "debugger"; "followterms"; "invite"; "last_signal"; "options"; "previous_command"; "process"; "program"; "show_pid"; "syscall_options"], ["breaks";
       "debugger"; "followterms"; "invite"; "last_signal"; "options"; "previous_command"; "process"; "program"; "show_pid"; "syscall_options"]));
     ("Gdb", "procInfo", (["breaks"; "debugger"; "followterms"; "invite"; "last_signal"; "options"; "previous_command"; "process"; "program"; "show_pid"; "syscall_options"], ["breaks";
       "debugger"; "followterms"; "invite"; "last_signal"; "options"; "previous_command"; "process"; "program"; "show_pid"; "syscall_options"]));
     ("Gdb", "procList", (["breaks"; "debugger"; "followterms"; "invite"; "last_signal"; "options"; "previous_command"; "process"; "program"; "show_pid"; "syscall_options"], ["breaks";
       "debugger"; "followterms"; "invite"; "last_signal"; "options"; "previous_command"; "process"; "program"; "show_pid"; "syscall_options"]));
     ("Gdb", "processExecution", (["breaks"; "debugger"; "followterms"; "invite"; "last_signal"; "options"; "previous_command"; "process"; "program"; "show_pid"; "syscall_options"],
       ["breaks"; "debugger"; "followterms"; "invite"; "last_signal"; "options"; "previous_command"; "process"; "program"; "show_pid"; "syscall_options"]));
     ("Gdb", "processOptions", (["options"; "program"], ["options"; "program"]));
     ("Gdb", "processSignal", (["breaks"; "debugger"; "followterms"; "invite"; "last_signal"; "options"; "previous_command"; "process"; "program"; "show_pid"; "syscall_options"], ["breaks";
       "debugger"; "followterms"; "invite"; "last_signal"; "options"; "previous_command"; "process"; "program"; "show_pid"; "syscall_options"]));
     ("Gdb", "readInstrSize", (["breaks"; "debugger"; "followterms"; "invite"; "last_signal"; "options"; "previous_command"; "process"; "program"; "show_pid"; "syscall_options"], ["breaks";
       "debugger"; "followterms"; "invite"; "last_signal"; "options"; "previous_command"; "process"; "program"; "show_pid"; "syscall_options"]));
     ("Gdb", "readRegister", (["breaks"; "debugger"; "followterms"; "invite"; "last_signal"; "options"; "previous_command"; "process"; "program"; "show_pid"; "syscall_options"], ["breaks";
       "debugger"; "followterms"; "invite"; "last_signal"; "options"; "previous_command"; "process"; "program"; "show_pid"; "syscall_options"]));
     ("Gdb", "restoreTerminal", (["breaks"; "debugger"; "followterms"; "last_signal"; "options"; "process"; "program"; "show_pid"; "syscall_options"], ["breaks"; "debugger"; "followterms";
       "last_signal"; "options"; "process"; "program"; "show_pid"; "syscall_options"]));
     ("Gdb", "runDebugger", (["breaks"; "debugger"; "followterms"; "last_signal"; "options"; "program"; "show_pid"; "syscall_options"], ["breaks"; "debugger"; "followterms"; "last_signal";
       "options"; "program"; "show_pid"; "syscall_options"]));
     ("Gdb", "set", (["breaks"; "debugger"; "followterms"; "invite"; "last_signal"; "options"; "previous_command"; "process"; "program"; "show_pid"; "syscall_options"], ["breaks";
       "debugger"; "followterms"; "invite"; "last_signal"; "options"; "previous_command"; "process"; "program"; "show_pid"; "syscall_options"]));
     ("Gdb", "setupDebugger", (["breaks"; "debugger"; "followterms"; "last_signal"; "options"; "program"; "show_pid"; "syscall_options"], ["breaks"; "debugger"; "followterms"; "last_signal";
       "options"; "program"; "show_pid"; "syscall_options"]));
     ("Gdb", "setupLog", (["options"; "program"; "show_pid"], ["options"; "program"; "show_pid"]));
     ("Gdb", "showFollowTerms", (["breaks"; "debugger"; "followterms"; "invite"; "last_signal"; "options"; "previous_command"; "process"; "program"; "show_pid"; "syscall_options"],
       ["breaks"; "debugger"; "followterms"; "invite"; "last_signal"; "options"; "previous_command"; "process"; "program"; "show_pid"; "syscall_options"]));
     ("Gdb", "signal", (["breaks"; "debugger"; "followterms"; "invite"; "last_signal"; "options"; "previous_command"; "process"; "program"; "show_pid"; "syscall_options"], ["breaks";
       "debugger"; "followterms"; "invite"; "last_signal"; "options"; "previous_command"; "process"; "program"; "show_pid"; "syscall_options"]));
     ("Gdb", "step", (["breaks"; "debugger"; "followterms"; "invite"; "last_signal"; "options"; "previous_command"; "process"; "program"; "show_pid"; "syscall_options"], ["breaks";
       "debugger"; "followterms"; "invite"; "last_signal"; "options"; "previous_command"; "process"; "program"; "show_pid"; "syscall_options"]));
     ("Gdb", "switch", (["breaks"; "debugger"; "followterms"; "invite"; "last_signal"; "options"; "previous_command"; "process"; "program"; "show_pid"; "syscall_options"], ["breaks";
       "debugger"; "followterms"; "invite"; "last_signal"; "options"; "previous_command"; "process"; "program"; "show_pid"; "syscall_options"]));
     ("Gdb", "switchProcess", (["breaks"; "debugger"; "followterms"; "invite"; "last_signal"; "options"; "previous_command"; "process"; "program"; "show_pid"; "syscall_options"], ["breaks";
       "debugger"; "followterms"; "invite"; "last_signal"; "options"; "previous_command"; "process"; "program"; "show_pid"; "syscall_options"]));
     ("Gdb", "syscallTrace", (["breaks"; "debugger"; "followterms"; "invite"; "last_signal"; "options"; "previous_command"; "process"; "program"; "show_pid"; "syscall_options"], ["breaks";
       "debugger"; "followterms"; "invite"; "last_signal"; "options"; "previous_command"; "process"; "program"; "show_pid"; "syscall_options"]));
     ("Gdb", "until", (["breaks"; "debugger"; "followterms"; "invite"; "last_signal"; "options"; "previous_command"; "process"; "program"; "show_pid"; "syscall_options"], ["breaks";
       "debugger"; "followterms"; "invite"; "last_signal"; "options"; "previous_command"; "process"; "program"; "show_pid"; "syscall_options"]));
     ("Gdb", "where", (["breaks"; "debugger"; "followterms"; "invite"; "last_signal"; "options"; "previous_command"; "process"; "program"; "show_pid"; "syscall_options"], ["breaks";
       "debugger"; "followterms"; "invite"; "last_signal"; "options"; "previous_command"; "process"; "program"; "show_pid"; "syscall_options"]));
     ("Gdb", "xray", (["breaks"; "debugger"; "followterms"; "invite"; "last_signal"; "options"; "previous_command"; "process"; "program"; "show_pid"; "syscall_options"], ["breaks";
       "debugger"; "followterms"; "invite"; "last_signal"; "options"; "previous_command"; "process"; "program"; "show_pid"; "syscall_options"]))].
Definition contracts_Tracer  : list contract :=
  let full : env := ["_output"; "ignore_regex"; "only"; "options"; "program"] in
    [
     ("Application", "__init__", ([], []));
     ("Tracer", "__init__", ([], full));
     ("Application", "createChild", (["_output"; "debugger"; "ignore_regex"; "only"; "options"; "program"], ["_output"; "debugger"; "ignore_regex"; "only"; "options"; "program"]));
     ("SyscallTracer", "createCommonOptions", ([], []));
     ("Tracer", "_main", (full, ["_output"; "debugger"; "ignore_regex"; "only"; "options"; "program"]));
     ("Tracer", "_setupLog", (full, full));
     ("Tracer", "createChild", (["_output"; "debugger"; "ignore_regex"; "only"; "options"; "program"], ["_output"; "debugger"; "ignore_regex"; "only"; "options"; "program"]));
     ("Tracer", "createCommonOptions", ([], []));
     ("Tracer", "createLogOptions", ([], []));
     ("Tracer", "createProcess", (["_output"; "debugger"; "ignore_regex"; "only"; "options"; "program"], ["_output"; "debugger"; "ignore_regex"; "only"; "options"; "program"]));
     ("Tracer", "displaySyscall", (["_output"; "debugger"; "ignore_regex"; "only"; "options"; "program"], ["_output"; "debugger"; "ignore_regex"; "only"; "options"; "program"]));
     ("Tracer", "main", (full, full));
     ("Tracer", "parseOptions", ([], ["ignore_regex"; "only"; "options"; "program"]));
     ("Tracer", "processExited", (["_output"; "debugger"; "ignore_regex"; "only"; "options"; "program"], ["_output"; "debugger"; "ignore_regex"; "only"; "options"; "program"]));
     ("Tracer", "processOptions", (["ignore_regex"; "only"; "options"; "program"], ["ignore_regex"; "only"; "options"; "program"]));
     ("Tracer", "runDebugger", (["_output"; "debugger"; "ignore_regex"; "only"; "options"; "program"], ["_output"; "debugger"; "ignore_regex"; "only"; "options"; "program"]));
     ("Tracer", "setupDebugger", (["_output"; "debugger"; "ignore_regex"; "only"; "options"; "program"], ["_output"; "debugger"; "ignore_regex"; "only"; "options"; "program"]));
     ("Tracer", "setupLog", (["ignore_regex"; "only"; "options"; "program"], full));
     ("Tracer", "syscallTrace", (["_output"; "debugger"; "ignore_regex"; "only"; "options"; "program"; "syscall_options"], ["_output"; "debugger"; "ignore_regex"; "only"; "options";
       "program"; "syscall_options"]))].
Definition contracts_TestsFinder  : list contract :=
  let full : env := ["_excludes"; "_includes"; "_test_factories"; "_testsdir"] in
    [
     ("TestsFinder", "__init__", ([], full));
     ("TestsFinder", "find_available_tests", (["_excludes"; "_includes"; "_testsdir"], full));
     ("TestsFinder", "load_tests", (full, full))].
Definition contracts_TestResult  : list contract :=
  let full : env := ["leaks"] in
    [
     ("TestResult", "__init__", ([], full));
     ("TestResult", "addSuccess", (full, full));
     ("TestResult", "startTest", (full, full))].
Definition contracts_TestRunner  : list contract :=
  let full : env := [] in
    [
     ("TestRunner", "run", (full, full))].
Definition contracts_TestStrace  : list contract :=
  let full : env := [] in
    [
     ("TestStrace", "assert_syscall", (full, full));
     ("TestStrace", "strace", (full, full));
     ("TestStrace", "test_basic", (full, full));
     ("TestStrace", "test_chdir", (full, full));
     ("TestStrace", "test_exitcode", (full, full));
     ("TestStrace", "test_exitsignal", (full, full));
     ("TestStrace", "test_getcwd", (full, full));
     ("TestStrace", "test_link", (full, full));
     ("TestStrace", "test_open", (full, full));
     ("TestStrace", "test_rename", (full, full));
     ("TestStrace", "test_socket", (full, full));
     ("TestStrace", "test_symlink", (full, full))].
Definition contracts_TestGdb  : list contract :=
  let full : env := [] in
    [
     ("TestGdb", "check_stdout", (full, full));
     ("TestGdb", "run_command", (full, full));
     ("TestGdb", "test_backtrace", (full, full));
     ("TestGdb", "test_dbginfo", (full, full));
     ("TestGdb", "test_maps", (full, full));
     ("TestGdb", "test_print", (full, full));
     ("TestGdb", "test_proc", (full, full));
     ("TestGdb", "test_regs", (full, full));
     ("TestGdb", "test_where", (full, full))].
Definition all_contracts (has_proc has_ptrace_io : bool) : list (attr * list contract) :=
  [("PtraceError", contracts_PtraceError);
   ("FunctionArgument", contracts_FunctionArgument);
   ("FunctionCallOptions", contracts_FunctionCallOptions);
   ("FunctionCall", contracts_FunctionCall);
   ("ProcError", contracts_ProcError);
   ("ProcessState", contracts_ProcessState);
   ("Instruction", contracts_Instruction);
   ("FakeProcess", contracts_FakeProcess);
   ("_WString", contracts__WString);
   ("_DecodedInst", contracts__DecodedInst);
   ("register_structure", contracts_register_structure);
   ("user_regs_struct", contracts_user_regs_struct);
   ("user_fpregs_struct", contracts_user_fpregs_struct);
   ("user_fpxregs_struct", contracts_user_fpxregs_struct);
   ("BacktraceFrame", contracts_BacktraceFrame);
   ("Backtrace", contracts_Backtrace);
   ("Breakpoint", contracts_Breakpoint);
   ("ChildError", contracts_ChildError);
   ("ChildPtraceError", contracts_ChildPtraceError);
   ("ProcessError", contracts_ProcessError);
   ("MemoryMapping", contracts_MemoryMapping);
   ("ProcessEvent", contracts_ProcessEvent);
   ("ProcessExit", contracts_ProcessExit);
   ("ProcessExecution", contracts_ProcessExecution);
   ("NewProcessEvent", contracts_NewProcessEvent);
   ("ProcessSignal", contracts_ProcessSignal);
   ("SignalInfo", contracts_SignalInfo);
   ("DivisionByZero", contracts_DivisionByZero);
   ("Abort", contracts_Abort);
   ("StackOverflow", contracts_StackOverflow);
   ("InvalidMemoryAccess", contracts_InvalidMemoryAccess);
   ("InvalidRead", contracts_InvalidRead);
   ("InvalidWrite", contracts_InvalidWrite);
   ("InstructionError", contracts_InstructionError);
   ("ChildExit", contracts_ChildExit);
   ("DebuggerError", contracts_DebuggerError);
   ("PtraceDebugger", contracts_PtraceDebugger);
   ("PtraceProcess", contracts_PtraceProcess has_proc has_ptrace_io);
   ("SyscallState", contracts_SyscallState);
   ("in_addr", contracts_in_addr);
   ("in6_addr", contracts_in6_addr);
   ("SyscallArgument", contracts_SyscallArgument);
   ("PtraceSyscall", contracts_PtraceSyscall);
   ("SyscallTracer", contracts_SyscallTracer);
   ("Gdb", contracts_Gdb);
   ("Tracer", contracts_Tracer);
   ("TestsFinder", contracts_TestsFinder);
   ("TestResult", contracts_TestResult);
   ("TestRunner", contracts_TestRunner);
   ("TestStrace", contracts_TestStrace);
   ("TestGdb", contracts_TestGdb)].
