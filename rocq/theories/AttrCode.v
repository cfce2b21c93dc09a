(** * AttrCode: the classes of the project and what their methods do with the attributes of their object.
    For every method, in the order of the source: the attributes of the object (self) that are read and assigned, the calls of its own methods, branches on flags
    of the platform (all other branches are AChoice), loops, try, return, raise and break (continue too).  exit() raises.  Everything else that can raise an exception is AOther.
    A method that is read without being called (a callback) may be called at this place.  Nested functions and lambdas may be called where they are defined.
    Fields of ctypes structures are attributes; structures without methods, and the fields of the subclasses of register_structure, are left out. *)
From Coq Require Import List Bool.
From Verif Require Import AttrNames AttrModel.
Import ListNotations.
Open Scope attr_scope.

(** Exception of Python: the attributes of it that are read *)
Definition ext_Exception : class := Class "Exception" None [(FTrue, MAttr "args"); (FTrue, MAttr "with_traceback"); (FTrue, MAttr "__class__")].
(** RuntimeError of Python: the attributes of it that are read *)
Definition ext_RuntimeError : class := Class "RuntimeError" None [(FTrue, MAttr "args"); (FTrue, MAttr "with_traceback"); (FTrue, MAttr "__class__")].
(** Structure of Python: the attributes of it that are read *)
Definition ext_Structure : class := Class "Structure" None [(FTrue, MAttr "__class__"); (FTrue, MAttr "_fields_")].
(** Union of Python: the attributes of it that are read *)
Definition ext_Union : class := Class "Union" None [(FTrue, MAttr "__class__"); (FTrue, MAttr "_fields_")].
(** object of Python: the attributes of it that are read *)
Definition ext_object : class := Class "object" None [(FTrue, MAttr "__class__"); (FTrue, MAttr "__dict__"); (FTrue, MAttr "__doc__")].
(** unittest.TestCase of Python: the attributes of it that are read *)
Definition ext_unittest_TestCase : class := Class "unittest.TestCase" None [(FTrue, MAttr "assertEqual"); (FTrue, MAttr "assertTrue"); (FTrue, MAttr "assertIsNone"); (FTrue, MAttr "fail")].
(** unittest.TextTestResult of Python: the attributes of it that are read *)
Definition ext_unittest_TextTestResult : class := Class "unittest.TextTestResult" None [(FTrue, MAttr "showAll"); (FTrue, MAttr "stream"); (FTrue, MAttr "getDescription"); (FTrue, MAttr "startTest"); (FTrue, MAttr "addSuccess")].
(** unittest.TextTestRunner of Python: the attributes of it that are read *)
Definition ext_unittest_TextTestRunner : class := Class "unittest.TextTestRunner" None [(FTrue, MAttr "stream"); (FTrue, MAttr "resultclass"); (FTrue, MAttr "run")].
(** ptrace/error.py 55-63 *)
Definition cls_PtraceError : class := Class "PtraceError" (Some "Exception") [
   (* 60-63 *) (FTrue, MMethod "__init__" (block [ASuper "Exception" "__init__"; ASet "errno"; ASet "pid"]))].
(** ptrace/func_arg.py 6-105 *)
Definition cls_FunctionArgument : class := Class "FunctionArgument" (Some "object") [
   (* 20-28 *) (FTrue, MMethod "__init__" (block [ASet "function"; ASet "index"; ASet "options"; ASet "value"; ASet "type"; ASet "name"; ASet "text"]));
   (* 30-45 *) (FTrue, MMethod "getText" (block [ARead "text"; AChoice (block [ATry (block [ARead "createText"; ACall "createText"; AChoice (block [AOther; ASet "text"]) (block [ARead
     "type"; AChoice (block [ARead "type"; AOther]) ASkip; AChoice (block [ARead "value"; AOther; ASet "text"]) (block [ARead "value"; AOther; ASet "text"])])]) (block [AChoice (block
     [AOther; ARead "name"; ARead "function"; AOther; ARead "value"; AOther; ASet "text"]) (block [ARaise])])]) ASkip; ARead "text"; AReturn]));
   (* 47-58 *) (FTrue, MMethod "format" (block [ARead "getText"; ACall "getText"; ARead "options"; AOther; AChoice (block [ARead "name"]) ASkip; AChoice (block [AOther; AChoice (block [ARead
     "type"]) ASkip; AChoice (block [ARead "type"; ARead "name"; AOther; AReturn]) (block [ARead "name"; AOther; AReturn])]) (block [AOther; AChoice (block [ARead "type"]) ASkip; AChoice
     (block [ARead "type"; AOther; AReturn]) (block [AReturn])])]));
   (* 60-61 *) (FTrue, MMethod "createText" (block [ARead "value"; AOther; AReturn]));
   (* 63-67 *) (FTrue, MMethod "formatPointer" (block [ARead "options"; AOther; AChoice (block [AOther; AReturn]) (block [AReturn])]));
   (* 69-89 *) (FTrue, MMethod "readStruct" (block [ARead "value"; AOther; ARead "function"; AOther; ALoop (block [AOther; ATry (block [ARead "formatStructValue"; ACall "formatStructValue";
     AOther]) (block [AChoice (block [AOther]) (block [ARaise])]); AOther]); AOther; ARead "formatPointer"; ACall "formatPointer"; AReturn]));
   (* 91-92 *) (FTrue, MMethod "formatStructValue" (block [AReturn]));
   (* 94-102 *) (FTrue, MMethod "readArray" (block [ARead "function"; AOther; ARead "formatPointer"; AOther; ACall "formatPointer"; AReturn]));
   (* 104-105 *) (FTrue, MMethod "__repr__" (block [ARead "name"; ARead "function"; AOther; AReturn]))].
(** ptrace/func_call.py 4-19 *)
Definition cls_FunctionCallOptions : class := Class "FunctionCallOptions" (Some "object") [
   (* 9-19 *) (FTrue, MMethod "__init__" (block [ASet "write_address"; ASet "write_types"; ASet "write_argname"; ASet "replace_socketcall"; ASet "string_max_length"; ASet "max_array_count";
     ASet "instr_pointer"]))].
(** ptrace/func_call.py 22-77 *)
Definition cls_FunctionCall : class := Class "FunctionCall" (Some "object") [
   (* 37-43 *) (FTrue, MMethod "__init__" (block [ASet "name"; ASet "options"; ASet "arguments"; ASet "restype"; ASet "resvalue"; ASet "argument_class"]));
   (* 45-48 *) (FTrue, MMethod "addArgument" (block [ARead "argument_class"; ARead "arguments"; AOther; ARead "options"; ACall "argument_class"; ARead "arguments"; AOther]));
   (* 50-51 *) (FTrue, MMethod "clearArguments" (block [ASet "arguments"]));
   (* 53-61 *) (FTrue, MMethod "__getitem__" (block [AOther; AChoice (block [ARead "arguments"; AOther; ALoop (block [AOther; AChoice (block [AReturn]) ASkip; AOther]); AOther; ARaise])
     (block [ARead "arguments"; AOther; AReturn])]));
   (* 63-74 *) (FTrue, MMethod "format" (block [ARead "arguments"; AOther; ARead "restype"; AChoice (block [ARead "options"; AOther]) ASkip; AChoice (block [ARead "restype"; ARead "name";
     AOther; AReturn]) (block [ARead "name"; AOther; AReturn])]));
   (* 76-77 *) (FTrue, MMethod "__repr__" (block [ARead "name"; AOther; AReturn]))].
(** ptrace/linux_proc.py 16-20 *)
Definition cls_ProcError : class := Class "ProcError" (Some "Exception") [
].
(** ptrace/linux_proc.py 56-99 *)
Definition cls_ProcessState : class := Class "ProcessState" (Some "object") [
   (FTrue, MAttr "STATE_NAMES");
   (* 80-99 *) (FTrue, MMethod "__init__" (block [AOther; ASet "pid"; ASet "program"; ARead "pid"; AOther; ASet "pid"; AOther; ASet "state"; AOther; ASet "ppid"; AOther; ASet "pgrp"; AOther;
     ASet "session"; AOther; ASet "tty_nr"; AOther; ASet "tpgid"; AOther; ASet "utime"; AOther; ASet "stime"; AOther; ASet "starttime"]))].
(** ptrace/disasm.py 31-54 *)
Definition cls_Instruction : class := Class "Instruction" (Some "object") [
   (* 44-51 *) (FTrue, MMethod "__init__" (block [AChoice (block [AOther; ASet "address"; ASet "size"; ASet "text"; ASet "hexa"]) (block [AOther; ASet "address"; AOther; ASet "size"; AOther;
     ASet "hexa"; AOther; ASet "text"])]));
   (* 53-54 *) (FTrue, MMethod "__str__" (block [ARead "text"; AReturn]))].
(** ptrace/mockup.py 6-15 *)
Definition cls_FakeProcess : class := Class "FakeProcess" (Some "object") [
   (* 8-9 *) (FTrue, MMethod "__init__" (block [ASet "regs"]));
   (* 11-12 *) (FTrue, MMethod "setreg" (block [ARead "regs"; AOther]));
   (* 14-15 *) (FTrue, MMethod "getreg" (block [ARead "regs"; AOther; AReturn]))].
(** ptrace/pydistorm.py 50-58 *)
Definition cls__WString : class := Class "_WString" (Some "Structure") [
   (FTrue, MAttr "pos");
   (FTrue, MAttr "p");
   (FTrue, MAttr "_fields_");
   (* 56-58 *) (FTrue, MMethod "__str__" (block [ARead "p"; AReturn]))].
(** ptrace/pydistorm.py 61-71 *)
Definition cls__DecodedInst : class := Class "_DecodedInst" (Some "Structure") [
   (FTrue, MAttr "mnemonic");
   (FTrue, MAttr "operands");
   (FTrue, MAttr "instructionHex");
   (FTrue, MAttr "size");
   (FTrue, MAttr "offset");
   (FTrue, MAttr "_fields_");
   (* 70-71 *) (FTrue, MMethod "__str__" (block [ARead "mnemonic"; ARead "operands"; AOther; AReturn]))].
(** ptrace/binding/linux_struct.py 15-20 *)
Definition cls_register_structure : class := Class "register_structure" (Some "Structure") [
   (* 16-20 *) (FTrue, MMethod "__str__" (block [ARead "__class__"; AOther; AReturn]))].
(** ptrace/binding/linux_struct.py 23-216 *)
Definition cls_user_regs_struct : class := Class "user_regs_struct" (Some "register_structure") [
].
(** ptrace/binding/linux_struct.py 219-244 *)
Definition cls_user_fpregs_struct : class := Class "user_fpregs_struct" (Some "register_structure") [
].
(** ptrace/binding/linux_struct.py 248-263 *)
Definition cls_user_fpxregs_struct : class := Class "user_fpxregs_struct" (Some "register_structure") [
].
(** ptrace/debugger/backtrace.py 6-23 *)
Definition cls_BacktraceFrame : class := Class "BacktraceFrame" (Some "object") [
   (* 16-19 *) (FTrue, MMethod "__init__" (block [ASet "ip"; ASet "name"; ASet "arguments"]));
   (* 21-23 *) (FTrue, MMethod "__str__" (block [ARead "arguments"; AOther; ARead "ip"; AOther; ARead "name"; AOther; AReturn]))].
(** ptrace/debugger/backtrace.py 26-42 *)
Definition cls_Backtrace : class := Class "Backtrace" (Some "object") [
   (* 31-33 *) (FTrue, MMethod "__init__" (block [ASet "frames"; ASet "truncated"]));
   (* 35-36 *) (FTrue, MMethod "append" (block [ARead "frames"; AOther]));
   (* 38-39 *) (FTrue, MMethod "__iter__" (block [ARead "frames"; AOther; AReturn]));
   (* 41-42 *) (FTrue, MMethod "__len__" (block [ARead "frames"; AOther; AReturn]))].
(** ptrace/debugger/breakpoint.py 9-66 *)
Definition cls_Breakpoint : class := Class "Breakpoint" (Some "object") [
   (* 16-37 *) (FTrue, MMethod "__init__" (block [ASet "_installed"; AOther; ASet "process"; ASet "address"; ASet "size"; AOther; ASet "old_bytes"; AOther; ASet "_installed"]));
   (* 39-55 *) (FTrue, MMethod "desinstall" (block [ARead "_installed"; AChoice (block [AReturn]) ASkip; ASet "_installed"; AOther; ARead "process"; ACall "process"; AChoice (block
     [AReturn]) ASkip; AOther; AChoice (block [AOther; ARead "address"; ARead "old_bytes"; AOther]) ASkip; AChoice (block [AOther; ARead "address"; AOther]) ASkip; AOther]));
   (* 57-60 *) (FTrue, MMethod "__str__" (block [ARead "address"; AOther; ARead "address"; ARead "size"; AOther; AReturn]));
   (* 62-66 *) (FTrue, MMethod "__del__" (block [ATry (block [ARead "desinstall"; ACall "desinstall"]) (block [AChoice ASkip (block [ARaise])])]))].
(** ptrace/debugger/child.py 23-24 *)
Definition cls_ChildError : class := Class "ChildError" (Some "RuntimeError") [
].
(** ptrace/debugger/child.py 27-28 *)
Definition cls_ChildPtraceError : class := Class "ChildPtraceError" (Some "ChildError") [
].
(** ptrace/debugger/process_error.py 4-8 *)
Definition cls_ProcessError : class := Class "ProcessError" (Some "PtraceError") [
   (* 6-8 *) (FTrue, MMethod "__init__" (block [AOther; ASuper "PtraceError" "__init__"; ASet "process"]))].
(** ptrace/debugger/memory_mapping.py 25-100 *)
Definition cls_MemoryMapping : class := Class "MemoryMapping" (Some "object") [
   (* 47-56 *) (FTrue, MMethod "__init__" (block [AOther; ASet "_process"; ASet "start"; ASet "end"; ASet "permissions"; ASet "offset"; ASet "major_device"; ASet "minor_device"; ASet
     "inode"; ASet "pathname"]));
   (* 58-59 *) (FTrue, MMethod "__contains__" (block [ARead "start"; ARead "end"; AOther; AReturn]));
   (* 61-66 *) (FTrue, MMethod "__str__" (block [ARead "start"; AOther; ARead "end"; AOther; ARead "pathname"; AChoice (block [ARead "pathname"; AOther]) ASkip; ARead "permissions"; AOther;
     AReturn]));
   (* 67-67 *) (FTrue, MMethod "__repr__" (block [ARead "__str__"; ACall "__str__"]));
   (* 69-100 *) (FTrue, MMethod "search" (block [ARead "_process"; ACall "_process"; AOther; ARead "end"; ARead "start"; AOther; ARead "start"; ALoop (block [AOther; AChoice (block [ABreak])
     ASkip; AOther]); AOther]))].
(** ptrace/debugger/process_event.py 4-14 *)
Definition cls_ProcessEvent : class := Class "ProcessEvent" (Some "Exception") [
   (* 12-14 *) (FTrue, MMethod "__init__" (block [ASuper "Exception" "__init__"; ASet "process"]))].
(** ptrace/debugger/process_event.py 17-39 *)
Definition cls_ProcessExit : class := Class "ProcessExit" (Some "ProcessEvent") [
   (* 25-39 *) (FTrue, MMethod "__init__" (block [AOther; ASuper "ProcessEvent" "__init__"; ASet "signum"; ASet "exitcode"]))].
(** ptrace/debugger/process_event.py 42-50 *)
Definition cls_ProcessExecution : class := Class "ProcessExecution" (Some "ProcessEvent") [
   (* 48-50 *) (FTrue, MMethod "__init__" (block [AOther; ASuper "ProcessEvent" "__init__"]))].
(** ptrace/debugger/process_event.py 53-61 *)
Definition cls_NewProcessEvent : class := Class "NewProcessEvent" (Some "ProcessEvent") [
   (* 60-61 *) (FTrue, MMethod "__init__" (block [AOther; ASuper "ProcessEvent" "__init__"]))].
(** ptrace/debugger/ptrace_signal.py 57-231 *)
Definition cls_ProcessSignal : class := Class "ProcessSignal" (Some "ProcessEvent") [
   (* 59-64 *) (FTrue, MMethod "__init__" (block [AOther; ASet "name"; ARead "name"; AOther; ASuper "ProcessEvent" "__init__"; ASet "signum"; ASet "reason"]));
   (* 66-75 *) (FTrue, MMethod "_analyze" (block [ARead "signum"; AOther; AChoice (block [ARead "memoryFault"; ACall "memoryFault"]) (block [ARead "signum"; AOther; AChoice (block [ARead
     "mathError"; ACall "mathError"]) (block [ARead "signum"; AOther; AChoice (block [ARead "childExit"; ACall "childExit"]) (block [ARead "signum"; AOther; AChoice (block [AOther; ASet
     "reason"]) ASkip])])]); ARead "reason"; AReturn]));
   (* 77-83 *) (FTrue, MMethod "getInstruction" (block [AIf (FNot (FFlag "HAS_DISASSEMBLER")) (block [AReturn]) ASkip; ATry (block [ARead "process"; AOther; AReturn]) (block [AChoice (block
     [AReturn]) (block [ARaise])])]));
   (* 85-120 *) (FTrue, MMethod "memoryFaultInstr" (block [AOther; AChoice (block [AChoice (block [ARead "process"; AOther]) ASkip; AOther; ARead "process"; AOther; ASet "reason"; AReturn])
     ASkip; AOther; AChoice (block [AChoice (block [ARead "process"; AOther]) ASkip; AOther; ARead "process"; AOther; ASet "reason"; AReturn]) ASkip; AOther; AChoice (block [AChoice (block
     [ARead "process"; AOther]) ASkip; AOther; ARead "process"; AOther; ASet "reason"; AReturn]) ASkip; AOther; AChoice (block [ARead "movsInstr"; ACall "movsInstr"; ASet "reason"; AReturn])
     ASkip]));
   (* 122-155 *) (FTrue, MMethod "movsInstr" (block [AOther; ATry (block [ARead "process"; AOther]) (block [AChoice ASkip (block [ARaise])]); ARead "process"; AOther; AReturn]));
   (* 157-161 *) (FTrue, MMethod "getSignalInfo" (block [AIf (FFlag "RUNNING_LINUX") (block [ARead "process"; AOther; AReturn]) (block [AReturn])]));
   (* 163-203 *) (FTrue, MMethod "memoryFault" (block [ARead "getSignalInfo"; ACall "getSignalInfo"; AOther; ARead "getInstruction"; ACall "getInstruction"; AChoice (block [ATry (block
     [ARead "process"; AOther; AChoice (block [ARead "process"; AOther; ASet "reason"; AReturn]) ASkip]) (block [AChoice ASkip (block [ARaise])])]) ASkip; ARead "process"; AOther; AChoice
     (block [ARead "process"; AOther; AChoice (block [ARead "process"; AOther; ASet "reason"; AReturn]) ASkip]) ASkip; AChoice (block [ARead "memoryFaultInstr"; ACall "memoryFaultInstr";
     ARead "reason"; AChoice (block [AReturn]) ASkip]) ASkip; ARead "process"; AOther; ASet "reason"]));
   (* 205-212 *) (FTrue, MMethod "mathError" (block [ARead "getInstruction"; ACall "getInstruction"; AChoice (block [AReturn]) ASkip; AOther; AChoice (block [AReturn]) ASkip; ARead
     "process"; AOther; ASet "reason"]));
   (* 214-220 *) (FTrue, MMethod "childExit" (block [ARead "getSignalInfo"; ACall "getSignalInfo"; AChoice (block [AOther; ASet "reason"]) (block [AOther; ASet "reason"])]));
   (* 222-231 *) (FTrue, MMethod "display" (block [ARead "_analyze"; ACall "_analyze"; AOther; ARead "process"; AOther; ARead "name"; AOther; ARead "reason"; AChoice (block [ARead "reason";
     AOther]) ASkip; AOther]))].
(** ptrace/debugger/signal_reason.py 65-90 *)
Definition cls_SignalInfo : class := Class "SignalInfo" (Some "Exception") [
   (* 67-77 *) (FTrue, MMethod "__init__" (block [ASuper "Exception" "__init__"; ASet "name"; ASet "text"; ASet "instr"; AOther; ASet "registers"; AChoice (block [ARead "registers"; AOther])
     ASkip; AOther; ASet "mappings"]));
   (* 79-87 *) (FTrue, MMethod "display" (block [ARead "text"; AOther; ARead "displayExtra"; ACall "displayExtra"; ARead "instr"; AChoice (block [ARead "instr"; AOther]) ASkip; ARead
     "mappings"; AOther; ARead "registers"; AOther]));
   (* 89-90 *) (FTrue, MMethod "displayExtra" (ASkip))].
(** ptrace/debugger/signal_reason.py 93-97 *)
Definition cls_DivisionByZero : class := Class "DivisionByZero" (Some "SignalInfo") [
   (* 95-97 *) (FTrue, MMethod "__init__" (block [ASuper "SignalInfo" "__init__"]))].
(** ptrace/debugger/signal_reason.py 100-104 *)
Definition cls_Abort : class := Class "Abort" (Some "SignalInfo") [
   (* 102-104 *) (FTrue, MMethod "__init__" (block [ASuper "SignalInfo" "__init__"]))].
(** ptrace/debugger/signal_reason.py 107-116 *)
Definition cls_StackOverflow : class := Class "StackOverflow" (Some "SignalInfo") [
   (* 109-116 *) (FTrue, MMethod "__init__" (block [AOther; ASuper "SignalInfo" "__init__"; ASet "stack_ptr"; ASet "stack_map"]))].
(** ptrace/debugger/signal_reason.py 119-144 *)
Definition cls_InvalidMemoryAccess : class := Class "InvalidMemoryAccess" (Some "SignalInfo") [
   (FTrue, MAttr "NAME");
   (FTrue, MAttr "PREFIX");
   (FTrue, MAttr "PREFIX_ADDR");
   (* 124-144 *) (FTrue, MMethod "__init__" (block [AChoice (block [AOther; ARead "PREFIX_ADDR"; AOther]) (block [ARead "PREFIX"]); AOther; ARead "NAME"; AOther; ASuper "SignalInfo"
     "__init__"]))].
(** ptrace/debugger/signal_reason.py 147-150 *)
Definition cls_InvalidRead : class := Class "InvalidRead" (Some "InvalidMemoryAccess") [
   (FTrue, MAttr "NAME");
   (FTrue, MAttr "PREFIX");
   (FTrue, MAttr "PREFIX_ADDR")].
(** ptrace/debugger/signal_reason.py 153-156 *)
Definition cls_InvalidWrite : class := Class "InvalidWrite" (Some "InvalidMemoryAccess") [
   (FTrue, MAttr "NAME");
   (FTrue, MAttr "PREFIX");
   (FTrue, MAttr "PREFIX_ADDR")].
(** ptrace/debugger/signal_reason.py 159-167 *)
Definition cls_InstructionError : class := Class "InstructionError" (Some "SignalInfo") [
   (* 161-167 *) (FTrue, MMethod "__init__" (block [AOther; ASuper "SignalInfo" "__init__"]))].
(** ptrace/debugger/signal_reason.py 170-184 *)
Definition cls_ChildExit : class := Class "ChildExit" (Some "SignalInfo") [
   (* 172-180 *) (FTrue, MMethod "__init__" (block [AOther; ASuper "SignalInfo" "__init__"; ASet "pid"; ASet "status"; ASet "uid"]));
   (* 182-184 *) (FTrue, MMethod "displayExtra" (block [ARead "uid"; AChoice (block [ARead "uid"; AOther]) ASkip]))].
(** ptrace/debugger/debugger.py 16-17 *)
Definition cls_DebuggerError : class := Class "DebuggerError" (Some "PtraceError") [
].
(** ptrace/debugger/debugger.py 20-293 *)
Definition cls_PtraceDebugger : class := Class "PtraceDebugger" (Some "object") [
   (* 64-72 *) (FTrue, MMethod "__init__" (block [ASet "dict"; ASet "list"; ASet "options"; ASet "trace_fork"; ASet "trace_exec"; ASet "trace_clone"; ASet "use_sysgood"; ARead
     "enableSysgood"; ACall "enableSysgood"]));
   (* 74-102 *) (FTrue, MMethod "addProcess" (block [ARead "dict"; AOther; AChoice (block [AOther; ARaise]) ASkip; AOther; ARead "dict"; AOther; ARead "list"; AOther; ATry (block [AOther])
     (block [AChoice (block [AChoice (block [AOther]) (block [AChoice (block [AOther]) (block [AOther; ARaise])])]) (block [ARaise])]); AIf (FFlag "HAS_PTRACE_EVENTS") (block [ARead
     "options"; AChoice (block [AOther; ARead "options"; AOther]) ASkip]) ASkip; AReturn]));
   (* 104-114 *) (FTrue, MMethod "quit" (block [AOther; ARead "list"; AOther]));
   (* 116-142 *) (FTrue, MMethod "_waitpid" (block [AOther; AChoice (block [ARead "dict"; AOther; AChoice (block [AOther; ARaise]) ASkip; ARead "dict"; AOther]) (block [AOther]); AOther;
     AChoice (block [AOther; ARaise]) ASkip; AReturn]));
   (* 144-166 *) (FTrue, MMethod "_wait_event_pid" (block [ALoop (block [ATry (block [ARead "_waitpid"; ACall "_waitpid"; AOther]) (block [AChoice (block [AOther; AChoice (block [ARead
     "dict"; AOther; AReturn]) (block [ARaise])]) (block [ARaise])]); AChoice (block [AReturn]) ASkip; ATry (block [ARead "dict"; AOther]) (block [AChoice (block [AOther]) (block
     [ARaise])])]); AOther; AReturn]));
   (* 168-185 *) (FTrue, MMethod "_wait_event" (block [AChoice (block [ARead "_wait_event_pid"; ACall "_wait_event_pid"; AReturn]) ASkip; ALoop (block [ARead "dict"; AOther; AChoice (block
     [AOther; ALoop (block [ARead "_wait_event_pid"; ACall "_wait_event_pid"; AChoice (block [AReturn]) ASkip; AOther]); AChoice (block [AReturn]) ASkip; AOther]) (block [ARead
     "_wait_event_pid"; AOther; ACall "_wait_event_pid"; AReturn])])]));
   (* 187-193 *) (FTrue, MMethod "waitProcessEvent" (block [ARead "_wait_event"; ACall "_wait_event"; AReturn]));
   (* 195-209 *) (FTrue, MMethod "waitSignals" (block [AOther; ALoop (block [ARead "_wait_event"; ACall "_wait_event"; AOther; AChoice (block [ARaise]) ASkip; AOther; AChoice (block
     [AReturn]) ASkip; ARaise])]));
   (* 211-223 *) (FTrue, MMethod "waitSyscall" (block [ARead "use_sysgood"; AOther; AChoice (block [ARead "waitSignals"; AOther; ACall "waitSignals"; AReturn]) (block [ARead "waitSignals";
     ACall "waitSignals"; AReturn])]));
   (* 225-241 *) (FTrue, MMethod "deleteProcess" (block [AChoice (block [ATry (block [ARead "dict"; AOther]) (block [AChoice (block [AReturn]) (block [ARaise])])]) ASkip; ATry (block [ARead
     "dict"; AOther]) (block [AChoice ASkip (block [ARaise])]); ATry (block [ARead "list"; AOther]) (block [AChoice ASkip (block [ARaise])])]));
   (* 243-252 *) (FTrue, MMethod "traceFork" (block [AIf (FNot (FFlag "HAS_PTRACE_EVENTS")) (block [AOther; ARaise]) ASkip; ARead "options"; AOther; ASet "options"; ASet "trace_fork"; ARead
     "options"; AOther]));
   (* 254-262 *) (FTrue, MMethod "traceExec" (block [AIf (FNot (FFlag "HAS_PTRACE_EVENTS")) (block [AReturn]) ASkip; ASet "trace_exec"; ARead "options"; AOther; ASet "options"]));
   (* 264-272 *) (FTrue, MMethod "traceClone" (block [AIf (FNot (FFlag "HAS_PTRACE_EVENTS")) (block [AReturn]) ASkip; ASet "trace_clone"; ARead "options"; AOther; ASet "options"]));
   (* 274-284 *) (FTrue, MMethod "enableSysgood" (block [AIf (FNot (FFlag "HAS_PTRACE_EVENTS")) (block [AReturn]) ASkip; ASet "use_sysgood"; ARead "options"; AOther; ASet "options"]));
   (* 286-287 *) (FTrue, MMethod "__getitem__" (block [ARead "dict"; AOther; AReturn]));
   (* 289-290 *) (FTrue, MMethod "__iter__" (block [ARead "list"; AOther; AReturn]));
   (* 292-293 *) (FTrue, MMethod "__len__" (block [ARead "list"; AOther; AReturn]))].
(** ptrace/debugger/process.py 64-777 *)
Definition cls_PtraceProcess : class := Class "PtraceProcess" (Some "object") [
   (* 160-177 *) (FTrue, MMethod "__init__" (block [ASet "debugger"; ASet "breakpoints"; ASet "pid"; ASet "running"; ASet "exited"; ASet "parent"; ASet "was_attached"; ASet "is_attached";
     ASet "is_stopped"; ASet "is_thread"; AChoice (block [ARead "attach"; ACall "attach"]) (block [ASet "is_attached"]); AIf (FFlag "HAS_PROC") (block [ASet "read_mem_file"]) ASkip; AOther;
     ASet "syscall_state"]));
   (* 179-183 *) (FTrue, MMethod "isTraced" (block [AIf (FNot (FFlag "HAS_PROC")) (block [ARead "notImplementedError"; ACall "notImplementedError"]) ASkip; ARead "pid"; AOther; AReturn]));
   (* 185-190 *) (FTrue, MMethod "attach" (block [ARead "is_attached"; AChoice (block [AReturn]) ASkip; ARead "pid"; AOther; ARead "pid"; AOther; ASet "is_attached"]));
   (* 192-209 *) (FTrue, MMethod "dumpCode" (block [ATry (block [ARead "getInstrPointer"; ACall "getInstrPointer"]) (block [AChoice (block [AChoice (block [AOther; AReturn]) ASkip]) (block
     [ARaise])]); ATry (block [ARead "_dumpCode"; ACall "_dumpCode"]) (block [AChoice (block [AOther]) (block [ARaise])])]));
   (* 211-256 *) (FTrue, MMethod "_dumpCode" (block [AOther; AIf (FNot (FFlag "HAS_DISASSEMBLER")) (block [AOther; ARead "readBytes"; ACall "readBytes"; AOther; AReturn]) ASkip; AOther;
     AChoice (block [AOther; ALoop (block [ARead "breakpoints"; AOther; AChoice (block [ARead "breakpoints"; AOther]) (block [ARead "disassembleOne"; ACall "disassembleOne"]); AOther;
     AChoice (block [ABreak]) ASkip; AOther])]) (block [ARead "disassemble"; ACall "disassemble"; AOther])]));
   (* 258-275 *) (FTrue, MMethod "disassemble" (block [AIf (FNot (FFlag "HAS_DISASSEMBLER")) (block [ARead "notImplementedError"; ACall "notImplementedError"]) ASkip; AChoice (block [ARead
     "getInstrPointer"; ACall "getInstrPointer"]) ASkip; AOther; ARead "readBytes"; ACall "readBytes"; AOther; ALoop (block [AOther; AChoice (block [ABreak]) ASkip; AOther])]));
   (* 277-283 *) (FTrue, MMethod "disassembleOne" (block [AIf (FNot (FFlag "HAS_DISASSEMBLER")) (block [ARead "notImplementedError"; ACall "notImplementedError"]) ASkip; AChoice (block
     [ARead "getInstrPointer"; ACall "getInstrPointer"]) ASkip; ARead "readBytes"; ACall "readBytes"; AOther; AReturn]));
   (* 285-289 *) (FTrue, MMethod "findStack" (block [ARead "readMappings"; ACall "readMappings"; AOther; ALoop (block [AOther; AChoice (block [AReturn]) ASkip; AOther]); AReturn]));
   (* 291-298 *) (FTrue, MMethod "detach" (block [ARead "is_attached"; AChoice (block [AReturn]) ASkip; ASet "is_attached"; ARead "running"; AChoice (block [AOther; ARead "pid"; AOther])
     ASkip; ARead "debugger"; AOther]));
   (* 300-307 *) (FTrue, MMethod "_notRunning" (block [ASet "running"; AIf (FFlag "HAS_PROC") (block [ARead "read_mem_file"; AChoice (block [ATry (block [ARead "read_mem_file"; AOther])
     (block [AChoice ASkip (block [ARaise])])]) ASkip]) ASkip; ARead "detach"; ACall "detach"]));
   (* 309-310 *) (FTrue, MMethod "kill" (block [ARead "pid"; AOther]));
   (* 312-332 *) (FTrue, MMethod "terminate" (block [ARead "running"; AChoice (block [ARead "was_attached"]) ASkip; AChoice (block [AReturn]) ASkip; AOther; ATry (block [ARead "is_stopped";
     AChoice (block [ARead "cont"; ACall "cont"]) (block [ARead "kill"; ACall "kill"])]) (block [AChoice (block [AOther; AChoice ASkip (block [ARaise])]) (block [ARaise])]); AChoice (block
     [AChoice (block [AReturn]) ASkip; ARead "waitExit"; ACall "waitExit"]) ASkip; ARead "_notRunning"; ACall "_notRunning"; AReturn]));
   (* 334-353 *) (FTrue, MMethod "waitExit" (block [ALoop (block [ARead "waitEvent"; ACall "waitEvent"; AOther; AChoice (block [AReturn]) ASkip; AOther; AChoice (block [ARaise]) ASkip;
     AOther; AChoice (block [ARead "cont"; ACall "cont"]) (block [ARead "cont"; ACall "cont"])])]));
   (* 355-378 *) (FTrue, MMethod "processStatus" (block [AOther; AChoice (block [AOther; ARead "processExited"; ACall "processExited"]) (block [AOther; AChoice (block [AOther; ARead
     "processKilled"; ACall "processKilled"]) (block [AOther; AChoice (block [AOther; ARaise]) (block [AIf (FFlag "HAS_PTRACE_EVENTS") (block [AOther; AChoice (block [AOther; ARead
     "ptraceEvent"; ACall "ptraceEvent"]) (block [AOther; ARead "processSignal"; ACall "processSignal"])]) (block [AOther; ARead "processSignal"; ACall "processSignal"])])])]); AReturn]));
   (* 380-382 *) (FTrue, MMethod "processTerminated" (block [ARead "_notRunning"; ACall "_notRunning"; AOther; AReturn]));
   (* 384-391 *) (FTrue, MMethod "processExited" (block [AIf (FFlag "RUNNING_BSD") (block [ARead "exited"; AChoice (block [ASet "exited"; ARead "waitExit"; ACall "waitExit"]) ASkip]) ASkip;
     ARead "_notRunning"; ACall "_notRunning"; AOther; AReturn]));
   (* 393-395 *) (FTrue, MMethod "processKilled" (block [ARead "_notRunning"; ACall "_notRunning"; AOther; AReturn]));
   (* 397-399 *) (FTrue, MMethod "processSignal" (block [ASet "is_stopped"; AOther; AReturn]));
   (* 401-413 *) (FTrue, MMethod "ptraceEvent" (block [AIf (FNot (FFlag "HAS_PTRACE_EVENTS")) (block [ARead "notImplementedError"; ACall "notImplementedError"]) ASkip; AOther; AChoice (block
     [ARead "pid"; AOther; ARead "debugger"; AOther; AReturn]) (block [AOther; AChoice (block [AOther; AReturn]) (block [AOther; ARaise])])]));
   (* 415-427 *) (FTrue, MMethod "getregs" (block [AIf (FOr (FFlag "HAS_PTRACE_GETREGS") (FFlag "HAS_PTRACE_GETREGSET")) (block [ARead "pid"; AOther; AReturn]) (block [AOther; ALoop (block
     [ARead "pid"; AOther]); AOther; AReturn])]));
   (* 429-442 *) (FTrue, MMethod "getreg" (block [ATry (block [AOther]) (block [AChoice ASkip (block [ARaise])]); AOther; AChoice (block [AOther; ARaise]) ASkip; ARead "getregs"; ACall
     "getregs"; AOther; AReturn]));
   (* 444-445 *) (FTrue, MMethod "setregs" (block [ARead "pid"; AOther]));
   (* 447-459 *) (FTrue, MMethod "setreg" (block [ARead "getregs"; ACall "getregs"; AOther; AChoice (block [AOther; ARaise]) ASkip; AOther; ARead "setregs"; ACall "setregs"]));
   (* 461-464 *) (FTrue, MMethod "singleStep" (block [AIf (FNot (FFlag "HAS_PTRACE_SINGLESTEP")) (block [ARead "notImplementedError"; ACall "notImplementedError"]) ASkip; ARead "pid";
     AOther]));
   (* 466-471 *) (FTrue, MMethod "filterSignal" (block [AOther; AChoice (block [AReturn]) (block [AReturn])]));
   (* 473-476 *) (FTrue, MMethod "syscall" (block [ARead "filterSignal"; ACall "filterSignal"; ARead "pid"; AOther; ASet "is_stopped"]));
   (* 478-483 *) (FTrue, MMethod "setInstrPointer" (block [AChoice (block [ARead "setreg"; ACall "setreg"]) (block [AOther; ARaise])]));
   (* 485-490 *) (FTrue, MMethod "getInstrPointer" (block [AChoice (block [ARead "getreg"; ACall "getreg"; AReturn]) (block [AOther; ARaise])]));
   (* 492-496 *) (FTrue, MMethod "getStackPointer" (block [AChoice (block [ARead "getreg"; ACall "getreg"; AReturn]) (block [AOther; ARaise])]));
   (* 498-502 *) (FTrue, MMethod "getFramePointer" (block [AChoice (block [ARead "getreg"; ACall "getreg"; AReturn]) (block [AOther; ARaise])]));
   (* 504-536 *) (FTrue, MMethod "_readBytes" (block [AOther; AChoice (block [AOther; ARead "readWord"; ACall "readWord"; AOther]) ASkip; ALoop (block [ARead "readWord"; ACall "readWord";
     AOther; AChoice (block [AOther; ABreak]) ASkip; AOther]); AReturn]));
   (* 538-541 *) (FTrue, MMethod "readWord" (block [ARead "pid"; AOther; AReturn]));
   (* 544-552 *) (FFlag "HAS_PTRACE_IO", MMethod "readBytes" (block [AOther; ARead "pid"; AOther; AReturn]));
   (* 554-585 *) (FAnd (FNot (FFlag "HAS_PTRACE_IO")) (FFlag "HAS_PROC"), MMethod "readBytes" (block [ARead "read_mem_file"; AChoice (block [ARead "pid"; AOther; ATry (block [AOther; ASet
     "read_mem_file"]) (block [AChoice (block [AOther; ARead "_readBytes"; ALoop (block [ACall "_readBytes"]); ASet "readBytes"; ARead "readBytes"; ACall "readBytes"; AReturn]) (block
     [ARaise])])]) ASkip; ATry (block [ARead "read_mem_file"; AOther]) (block [AChoice (block [AOther; ARaise]) (block [ARaise])]); AOther; AChoice (block [ARead "_readBytes"; ALoop (block
     [ACall "_readBytes"]); ASet "readBytes"; ARead "readBytes"; ACall "readBytes"; AReturn]) ASkip; AReturn]));
   (* 587-587 *) (FAnd (FNot (FFlag "HAS_PTRACE_IO")) (FNot (FFlag "HAS_PROC")), MMethod "readBytes" (block [ARead "_readBytes"; ACall "_readBytes"]));
   (* 589-592 *) (FTrue, MMethod "getsiginfo" (block [AIf (FNot (FFlag "HAS_PTRACE_SIGINFO")) (block [ARead "notImplementedError"; ACall "notImplementedError"]) ASkip; ARead "pid"; AOther;
     AReturn]));
   (* 594-640 *) (FTrue, MMethod "writeBytes" (block [AIf (FFlag "HAS_PTRACE_IO") (block [AOther; ARead "pid"; AOther]) (block [AOther; AChoice (block [AOther; ARead "readBytes"; ACall
     "readBytes"; AOther; ARead "writeWord"; AOther; ACall "writeWord"; AOther]) ASkip; ALoop (block [AOther; ARead "writeWord"; ACall "writeWord"; AOther]); AOther; AChoice (block
     [AReturn]) ASkip; AOther; ARead "readBytes"; ACall "readBytes"; AOther; ARead "writeWord"; AOther; ACall "writeWord"])]));
   (* 642-645 *) (FTrue, MMethod "readStruct" (block [ARead "readBytes"; AOther; ACall "readBytes"; AOther; AReturn]));
   (* 647-650 *) (FTrue, MMethod "readArray" (block [ARead "readBytes"; AOther; ACall "readBytes"; AOther; AReturn]));
   (* 652-673 *) (FTrue, MMethod "readCString" (block [ALoop (block [ARead "readBytes"; ACall "readBytes"; AOther; AChoice (block [AOther; ABreak]) ASkip; AOther; AChoice (block [ABreak])
     ASkip; AOther]); AOther; AReturn]));
   (* 675-681 *) (FTrue, MMethod "dumpStack" (block [ARead "findStack"; ACall "findStack"; AOther; ARead "_dumpStack"; ACall "_dumpStack"]));
   (* 683-695 *) (FTrue, MMethod "_dumpStack" (block [ARead "getStackPointer"; ACall "getStackPointer"; AOther; ALoop (block [AOther; ATry (block [ARead "readWord"; AOther; ACall "readWord";
     AOther]) (block [AChoice ASkip (block [ARaise])]); AOther]); AOther]));
   (* 697-698 *) (FTrue, MMethod "readMappings" (block [AOther; AReturn]));
   (* 700-704 *) (FTrue, MMethod "dumpMaps" (block [ARead "readMappings"; ACall "readMappings"; AOther]));
   (* 706-710 *) (FTrue, MMethod "writeWord" (block [ARead "pid"; AOther]));
   (* 712-719 *) (FTrue, MMethod "dumpRegs" (block [ATry (block [ARead "getregs"; ACall "getregs"; AOther]) (block [AChoice (block [AOther]) (block [ARaise])])]));
   (* 721-724 *) (FTrue, MMethod "cont" (block [ARead "filterSignal"; ACall "filterSignal"; ARead "pid"; AOther; ASet "is_stopped"]));
   (* 726-730 *) (FTrue, MMethod "setoptions" (block [AIf (FNot (FFlag "HAS_PTRACE_EVENTS")) (block [ARead "notImplementedError"; ACall "notImplementedError"]) ASkip; AOther; ARead "pid";
     AOther]));
   (* 732-733 *) (FTrue, MMethod "waitEvent" (block [ARead "debugger"; AOther; ARead "pid"; AOther; AReturn]));
   (* 735-736 *) (FTrue, MMethod "waitSignals" (block [ARead "debugger"; AOther; ARead "pid"; AOther; AReturn]));
   (* 738-739 *) (FTrue, MMethod "waitSyscall" (block [ARead "debugger"; AOther]));
   (* 741-745 *) (FTrue, MMethod "findBreakpoint" (block [ARead "breakpoints"; AOther; ALoop (block [AOther; AChoice (block [AReturn]) ASkip; AOther]); AReturn]));
   (* 747-753 *) (FTrue, MMethod "createBreakpoint" (block [ARead "findBreakpoint"; ACall "findBreakpoint"; AChoice (block [AOther; ARaise]) ASkip; AOther; ARead "breakpoints"; AOther;
     AReturn]));
   (* 755-756 *) (FTrue, MMethod "getBacktrace" (block [AOther; AReturn]));
   (* 758-759 *) (FTrue, MMethod "removeBreakpoint" (block [ARead "breakpoints"; AOther]));
   (* 761-765 *) (FTrue, MMethod "__del__" (block [ATry (block [ARead "detach"; ACall "detach"]) (block [AChoice ASkip (block [ARaise])])]));
   (* 767-768 *) (FTrue, MMethod "__str__" (block [ARead "__repr__"; ACall "__repr__"; AReturn]));
   (* 770-771 *) (FTrue, MMethod "__repr__" (block [ARead "pid"; AOther; AReturn]));
   (* 773-774 *) (FTrue, MMethod "__hash__" (block [ARead "pid"; AOther; AReturn]));
   (* 776-777 *) (FTrue, MMethod "notImplementedError" (block [AOther; ARaise]))].
(** ptrace/debugger/syscall_state.py 5-48 *)
Definition cls_SyscallState : class := Class "SyscallState" (Some "object") [
   (* 7-11 *) (FTrue, MMethod "__init__" (block [ASet "process"; ASet "ignore_exec_trap"; ASet "ignore_callback"; ARead "clear"; ACall "clear"]));
   (* 13-17 *) (FTrue, MMethod "event" (block [ARead "next_event"; AOther; AChoice (block [ARead "exit"; ACall "exit"; AReturn]) (block [ARead "enter"; ACall "enter"; AReturn])]));
   (* 19-30 *) (FTrue, MMethod "enter" (block [ARead "process"; AOther; ARead "process"; AOther; ASet "syscall"; ARead "syscall"; AOther; ASet "name"; ARead "ignore_callback"; AChoice (block
     [ARead "ignore_callback"; ARead "syscall"; ACall "ignore_callback"]) ASkip; AChoice (block [ARead "syscall"; AOther]) (block [ASet "syscall"]); ASet "next_event"; ARead "syscall";
     AReturn]));
   (* 32-43 *) (FTrue, MMethod "exit" (block [ARead "syscall"; AChoice (block [ARead "syscall"; AOther]) ASkip; ARead "ignore_exec_trap"; AChoice (block [ARead "name"; AOther; AChoice (block
     [ARead "process"; AOther]) ASkip]) ASkip; AChoice (block [ARead "process"; AOther; ARead "process"; AOther]) ASkip; ARead "syscall"; ARead "clear"; ACall "clear"; AReturn]));
   (* 45-48 *) (FTrue, MMethod "clear" (block [ASet "syscall"; ASet "name"; ASet "next_event"]))].
(** ptrace/syscall/socketcall_struct.py 37-44 *)
Definition cls_in_addr : class := Class "in_addr" (Some "Structure") [
   (FTrue, MAttr "s_addr");
   (FTrue, MAttr "_fields_");
   (* 42-44 *) (FTrue, MMethod "__repr__" (block [ARead "s_addr"; AOther; AReturn]))].
(** ptrace/syscall/socketcall_struct.py 47-56 *)
Definition cls_in6_addr : class := Class "in6_addr" (Some "Union") [
   (FTrue, MAttr "addr8");
   (FTrue, MAttr "addr16");
   (FTrue, MAttr "addr32");
   (FTrue, MAttr "_fields_");
   (* 54-56 *) (FTrue, MMethod "__repr__" (block [AOther; ARead "addr16"; AOther; AReturn]))].
(** ptrace/syscall/syscall_argument.py 73-248 *)
Definition cls_SyscallArgument : class := Class "SyscallArgument" (Some "FunctionArgument") [
   (* 75-152 *) (FTrue, MMethod "createText" (block [ARead "value"; ARead "type"; ARead "name"; AChoice (block [ARead "value"; AOther; AReturn]) ASkip; ARead "function"; AOther; ATry (block
     [AOther; AReturn]) (block [AChoice ASkip (block [ARaise])]); ATry (block [AOther]) (block [AChoice ASkip (block [ARaise])]); AChoice (block [AOther; AReturn]) ASkip; AOther; AChoice
     (block [AOther; AChoice (block [ARead "readCStringArray"; ACall "readCStringArray"; AReturn]) ASkip]) ASkip; AOther; AChoice (block [AOther; AChoice (block [ATry (block [AOther;
     AReturn]) (block [AChoice (block [AOther; AReturn]) (block [ARaise])])]) ASkip; AOther; AChoice (block [ARead "options"; AOther; ARead "function"; AOther; ARead "function"; AOther;
     ARead "value"; AOther; ARead "formatPointer"; ARead "value"; ACall "formatPointer"; AReturn]) ASkip]) ASkip; AOther; AChoice (block [ARead "function"; AOther; AChoice (block [ARead
     "function"; AOther; ARead "readString"; ACall "readString"; AReturn]) ASkip]) ASkip; AOther; AChoice (block [AOther; AReturn]) ASkip; AOther; AChoice (block [ARead "readCString"; ACall
     "readCString"; AReturn]) ASkip; AOther; AChoice (block [ATry (block [ARead "formatValuePointer"; AOther; ACall "formatValuePointer"; AChoice (block [AReturn]) ASkip]) (block [AChoice
     (block [AOther]) (block [ARaise])]); ARead "value"; AOther; AReturn]) ASkip; AOther; AChoice (block [AOther; AChoice (block [ARead "readArray"; ARead "value"; ACall "readArray";
     AReturn]) ASkip]) ASkip; AOther; AChoice (block [ARead "value"; AOther; AReturn]) ASkip; AOther; AChoice (block [ARead "value"; AOther; AReturn]) ASkip; ARead "value"; AOther;
     AReturn]));
   (* 154-191 *) (FTrue, MMethod "formatValuePointer" (block [ARead "value"; AChoice (block [AReturn]) ASkip; AOther; ATry (block [AOther]) (block [AChoice ASkip (block [ARaise])]); AChoice
     (block [AOther; AReturn]) ASkip; AOther; AChoice (block [ARead "function"; AOther; ARead "formatPointer"; AOther; ACall "formatPointer"; AReturn]) ASkip; AOther; AChoice (block [AOther;
     ARead "readStruct"; ACall "readStruct"; AReturn]) ASkip; AIf (FFlag "RUNNING_LINUX") (block [AOther; AChoice (block [ARead "function"; AOther; ARead "readBits"; ACall "readBits";
     AOther; ARead "formatPointer"; AOther; ACall "formatPointer"; AReturn]) ASkip]) ASkip; ARead "function"; AOther; AChoice (block [ARead "function"; AOther; ALoop (block [AOther;
     AReturn]); ARead "readBits"; ACall "readBits"; ARead "formatPointer"; AOther; ACall "formatPointer"; AReturn]) ASkip; AReturn]));
   (* 193-197 *) (FTrue, MMethod "readBits" (block [ARead "function"; AOther; AReturn]));
   (* 199-210 *) (FTrue, MMethod "readCString" (block [AChoice (block [ARead "options"; AOther; ARead "function"; AOther]) ASkip; ARead "formatPointer"; ACall "formatPointer"; AReturn]));
   (* 212-224 *) (FTrue, MMethod "readString" (block [AChoice (block [ARead "options"; AOther; ARead "function"; AOther]) ASkip; ARead "formatPointer"; ACall "formatPointer"; AReturn]));
   (* 226-242 *) (FTrue, MMethod "readCStringArray" (block [AChoice (block [AReturn]) ASkip; ARead "options"; AOther; ALoop (block [ARead "function"; AOther; ARead "readCString"; ACall
     "readCString"; AOther; AChoice (block [ABreak]) ASkip; AOther; AChoice (block [AOther; ABreak]) ASkip]); AOther; ARead "formatPointer"; ACall "formatPointer"; AReturn]));
   (* 244-248 *) (FTrue, MMethod "formatStructValue" (block [AOther; AChoice (block [AOther; AReturn]) ASkip; AReturn]))].
(** ptrace/syscall/ptrace_syscall.py 54-156 *)
Definition cls_PtraceSyscall : class := Class "PtraceSyscall" (Some "FunctionCall") [
   (* 56-65 *) (FTrue, MMethod "__init__" (block [ASuper "FunctionCall" "__init__"; ASet "process"; ASet "restype"; ASet "result"; ASet "result_text"; ASet "instr_pointer"; AChoice (block
     [ARead "process"; AOther]) ASkip; ARead "readSyscall"; ACall "readSyscall"]));
   (* 67-83 *) (FTrue, MMethod "enter" (block [AChoice (block [ARead "process"; AOther]) ASkip; ARead "readArgumentValues"; ACall "readArgumentValues"; ARead "readArguments"; ACall
     "readArguments"; ARead "name"; AOther; AChoice (block [ARead "options"; AOther]) ASkip; AChoice (block [ARead "process"; ARead "__getitem__"; ACall "__getitem__"; ARead "__getitem__";
     ACall "__getitem__"; AOther]) ASkip; ARead "name"; AOther; AChoice (block [ARead "name"; AOther; ALoop (block [ARead "arguments"; AOther])]) ASkip; ARead "options"; AOther; AChoice
     (block [AOther; ASet "instr_pointer"]) ASkip]));
   (* 85-90 *) (FTrue, MMethod "readSyscall" (block [AOther; ASet "syscall"; AOther; ARead "syscall"; ARead "syscall"; AOther; ASet "name"]));
   (* 92-109 *) (FTrue, MMethod "readArgumentValues" (block [AIf (FFlag "CPU_X86_64") (block [AOther; AReturn]) ASkip; AIf (FFlag "CPU_ARM32") (block [AOther; AReturn]) ASkip; AIf (FFlag
     "CPU_AARCH64") (block [AOther; AReturn]) ASkip; AIf (FFlag "CPU_RISCV") (block [AOther; AReturn]) ASkip; AIf (FFlag "RUNNING_BSD") (block [ARead "process"; AOther; ALoop (block [ARead
     "process"; AOther]); AReturn]) ASkip; AIf (FFlag "CPU_I386") (block [AOther; AReturn]) ASkip; AIf (FFlag "CPU_POWERPC") (block [AOther; AReturn]) ASkip; AOther; ARaise]));
   (* 111-119 *) (FTrue, MMethod "readArguments" (block [ARead "name"; AOther; AChoice (block [ARead "name"; AOther; ASet "restype"; AOther; ALoop (block [AOther; ARead "addArgument"; ACall
     "addArgument"; AOther])]) (block [AOther; ALoop (block [ARead "addArgument"; ACall "addArgument"; AOther])])]));
   (* 121-153 *) (FTrue, MMethod "exit" (block [ARead "name"; AOther; AChoice (block [ARead "name"; AOther]) (block [AOther]); ARead "arguments"; AOther; ALoop (block [AOther; AChoice (block
     [ABreak]) ASkip; AOther; AChoice (block [ABreak]) ASkip; AOther]); ARead "process"; AOther; ASet "result"; ARead "restype"; AOther; AChoice (block [ARead "result"; AOther]) (block
     [ARead "result"; ARead "result"; AOther; ASet "result"; ARead "result"; AOther; AChoice (block [ARead "result"; AOther]) ASkip; AChoice (block [ARead "result"; AOther; ARead "result";
     AOther]) (block [ARead "result"; AOther; AChoice (block [ARead "result"; AOther]) (block [ARead "result"; AOther])])]); ASet "result_text"; AReturn]));
   (* 155-156 *) (FTrue, MMethod "__str__" (block [ARead "name"; AOther; AReturn]))].
(** ptrace/debugger/application.py 13-91 *)
Definition cls_Application : class := Class "Application" (Some "object") [
   (* 15-16 *) (FTrue, MMethod "__init__" (ASkip));
   (* 18-30 *) (FTrue, MMethod "_setupLog" (block [AOther; ARead "options"; AOther; AChoice ASkip (block [ARead "options"; AOther; AChoice ASkip (block [ARead "options"; AOther])]);
     AOther]));
   (* 32-34 *) (FTrue, MMethod "processOptions" (block [ARead "program"; AChoice (block [ARead "program"; AOther; ARead "program"; AOther]) ASkip]));
   (* 36-44 *) (FTrue, MMethod "createLogOptions" (block [AOther]));
   (* 46-47 *) (FTrue, MMethod "createChild" (block [ARead "options"; AOther; AReturn]));
   (* 49-60 *) (FTrue, MMethod "setupDebugger" (block [ARead "options"; AOther; AChoice (block [ATry (block [ARead "debugger"; AOther]) (block [AChoice (block [AOther; ARaise]) (block
     [ARaise])])]) ASkip; ARead "options"; AOther; AChoice (block [ARead "debugger"; AOther]) ASkip; ARead "options"; AOther; AChoice (block [ARead "debugger"; AOther]) ASkip]));
   (* 62-79 *) (FTrue, MMethod "createProcess" (block [ARead "options"; AOther; AChoice (block [ARead "options"; AOther]) (block [ARead "createChild"; ARead "program"; ACall "createChild"]);
     ATry (block [ARead "debugger"; AOther; AReturn]) (block [AChoice (block [AOther]) (block [ARaise])]); AReturn]));
   (* 81-91 *) (FTrue, MMethod "createCommonOptions" (block [AOther]))].
(** strace.py 18-281 *)
Definition cls_SyscallTracer : class := Class "SyscallTracer" (Some "Application") [
   (* 20-27 *) (FTrue, MMethod "__init__" (block [ASuper "Application" "__init__"; ARead "parseOptions"; ACall "parseOptions"; ARead "setupLog"; ACall "setupLog"]));
   (* 29-36 *) (FTrue, MMethod "setupLog" (block [ARead "options"; AOther; AChoice (block [ARead "options"; AOther; ASet "_output"]) (block [ASet "_output"]); ARead "_setupLog"; ACall
     "_setupLog"]));
   (* 38-135 *) (FTrue, MMethod "parseOptions" (block [AOther; ARead "createCommonOptions"; ACall "createCommonOptions"; AOther; ARead "createLogOptions"; ACall "createLogOptions"; AOther;
     ASet "options"; ASet "program"; ARead "options"; AOther; AChoice (block [AOther; ARaise]) ASkip; ARead "options"; AOther; AChoice (block [ARead "program"]) ASkip; AChoice (block
     [AOther; ARaise]) ASkip; AOther; ARead "options"; AOther; AChoice (block [ARead "options"; AOther; ALoop (block [AOther; AChoice (block [ABreak]) ASkip; AOther; AChoice (block [AOther;
     ARaise]) ASkip; AOther])]) ASkip; ARead "options"; AOther; ARead "options"; AOther; ASet "only"; ARead "options"; AOther; AChoice (block [ATry (block [AOther; ARead "options"; AOther;
     ASet "ignore_regex"]) (block [AChoice (block [AOther; ARead "options"; AOther; ARaise]) (block [ARaise])])]) (block [ASet "ignore_regex"]); ARead "options"; AOther; AChoice (block
     [ARead "options"; AOther]) ASkip; ARead "processOptions"; ACall "processOptions"]));
   (* 137-143 *) (FTrue, MMethod "ignoreSyscall" (block [AOther; ARead "only"; AChoice (block [ARead "only"; AOther]) ASkip; AChoice (block [AReturn]) ASkip; ARead "ignore_regex"; AChoice
     (block [ARead "ignore_regex"; AOther]) ASkip; AChoice (block [AReturn]) ASkip; AReturn]));
   (* 145-156 *) (FTrue, MMethod "displaySyscall" (block [AOther; ARead "options"; AOther; ARead "options"; AOther]));
   (* 158-189 *) (FTrue, MMethod "syscallTrace" (block [ARead "prepareProcess"; ACall "prepareProcess"; ALoop (block [ARead "debugger"; AChoice (block [ABreak]) ASkip; ATry (block [ARead
     "debugger"; AOther]) (block [AChoice (block [AChoice (block [ARead "processExited"; ACall "processExited"; AOther; ABreak]) (block [AChoice (block [AOther; ABreak]) (block [AChoice
     (block [ARead "newProcess"; ACall "newProcess"; ABreak]) (block [ARead "processExecution"; ACall "processExecution"; ABreak])])])]) (block [ARaise])]); ARead "syscall"; AOther; ACall
     "syscall"]); AReturn]));
   (* 191-198 *) (FTrue, MMethod "syscall" (block [AOther; ARead "syscall_options"; AOther; AChoice (block [AOther; AChoice (block [ARead "options"; AOther]) ASkip]) ASkip; AChoice (block
     [ARead "displaySyscall"; ACall "displaySyscall"]) ASkip; AOther]));
   (* 200-209 *) (FTrue, MMethod "processExited" (block [AOther; AChoice (block [ARead "options"; AOther]) ASkip; AChoice (block [ARead "displaySyscall"; AOther; ACall "displaySyscall"])
     ASkip; AOther]));
   (* 211-213 *) (FTrue, MMethod "prepareProcess" (block [AOther; ARead "ignoreSyscall"; ALoop (block [ACall "ignoreSyscall"]); AOther]));
   (* 215-219 *) (FTrue, MMethod "newProcess" (block [AOther; ARead "prepareProcess"; ACall "prepareProcess"; AOther]));
   (* 221-224 *) (FTrue, MMethod "processExecution" (block [AOther]));
   (* 226-243 *) (FTrue, MMethod "runDebugger" (block [ARead "setupDebugger"; ACall "setupDebugger"; ARead "createProcess"; ACall "createProcess"; AChoice (block [AReturn]) ASkip; ARead
     "options"; AOther; ARead "options"; AOther; ARead "options"; AOther; ARead "options"; AOther; ARead "options"; AOther; ARead "options"; AOther; ASet "syscall_options"; ARead "options";
     AOther; ARead "syscall_options"; AOther; ARead "syscallTrace"; ACall "syscallTrace"; AReturn]));
   (* 245-253 *) (FTrue, MMethod "main" (block [ARead "options"; AOther; AChoice (block [AOther; ARead "_main"; ALoop (block [ACall "_main"]); AOther]) (block [ARead "_main"; ACall
     "_main"]); ARead "_output"; AChoice (block [ARead "_output"; AOther]) ASkip; AOther]));
   (* 255-275 *) (FTrue, MMethod "_main" (block [AOther; ASet "debugger"; ATry (block [ARead "runDebugger"; ACall "runDebugger"]) (block [AChoice (block [AChoice (block [ARead
     "processExited"; ACall "processExited"; AOther]) (block [AOther])]) (block [ARaise])]); ARead "debugger"; AOther; AReturn]));
   (* 277-281 *) (FTrue, MMethod "createChild" (block [ASuper "Application" "createChild"; AOther; AReturn]))].
(** gdb.py 125-883 *)
Definition cls_Gdb : class := Class "Gdb" (Some "Application") [
   (* 127-148 *) (FTrue, MMethod "__init__" (block [ASuper "Application" "__init__"; ARead "parseOptions"; ACall "parseOptions"; ARead "setupLog"; ACall "setupLog"; ASet "last_signal";
     AOther; ASet "syscall_options"; AOther; ASet "breaks"; ASet "followterms"]));
   (* 150-151 *) (FTrue, MMethod "setupLog" (block [ARead "_setupLog"; ACall "_setupLog"]));
   (* 153-165 *) (FTrue, MMethod "parseOptions" (block [AOther; ARead "createCommonOptions"; ACall "createCommonOptions"; ARead "createLogOptions"; ACall "createLogOptions"; AOther; ASet
     "options"; ASet "program"; ARead "options"; AOther; AChoice (block [ARead "program"]) ASkip; AChoice (block [AOther; ARaise]) ASkip; ARead "processOptions"; ACall "processOptions";
     ARead "options"; AOther; ASet "show_pid"]));
   (* 167-179 *) (FTrue, MMethod "_continueProcess" (block [AChoice (block [ARead "last_signal"; AOther]) ASkip; AChoice (block [ARead "last_signal"; AOther]) ASkip; AChoice (block [AOther;
     ATry (block [ARead "last_signal"; AOther]) (block [AChoice ASkip (block [ARaise])])]) (block [AOther])]));
   (* 181-205 *) (FTrue, MMethod "cont" (block [ARead "debugger"; AOther; ALoop (block [AOther; ARead "process"; AOther; AChoice (block [ARead "_continueProcess"; ACall "_continueProcess"])
     (block [ARead "_continueProcess"; ACall "_continueProcess"]); AOther]); ARead "debugger"; AOther; AChoice (block [ARead "process"; AOther; AIf (FNot (FFlag "CPU_POWERPC")) (block
     [AOther]) ASkip; ARead "process"; AOther]) (block [ARead "processSignal"; ACall "processSignal"]); AReturn]));
   (* 207-210 *) (FTrue, MMethod "readRegister" (block [AOther; ARead "process"; AOther; AReturn]));
   (* 212-252 *) (FTrue, MMethod "parseInteger" (block [AOther; AChoice (block [AOther; ARaise]) ASkip; AOther; ARead "readRegister"; ALoop (block [ACall "readRegister"]); AOther; ALoop
     (block [AOther; AChoice (block [AOther]) (block [AOther; AChoice (block [AReturn]) ASkip]); AOther; AReturn]); AOther; AChoice (block [AOther; ARaise]) ASkip; AOther; ATry (block
     [AOther]) (block [AChoice (block [AOther; ARaise]) (block [ARaise])]); AChoice (block [ARead "process"; AOther]) ASkip; AReturn]));
   (* 254-260 *) (FTrue, MMethod "parseIntegers" (block [AOther; ALoop (block [AOther; ARead "parseInteger"; ACall "parseInteger"; AOther]); AReturn]));
   (* 262-270 *) (FTrue, MMethod "parseBytes" (block [AOther; AChoice (block [AOther; ARaise]) ASkip; AReturn]));
   (* 272-275 *) (FTrue, MMethod "addFollowTerm" (block [ARead "parseBytes"; ACall "parseBytes"; ARead "followterms"; AOther]));
   (* 277-278 *) (FTrue, MMethod "showFollowTerms" (block [ARead "followterms"; AOther]));
   (* 280-285 *) (FTrue, MMethod "_xray" (block [ARead "followterms"; AOther; ALoop (block [ARead "debugger"; AOther])]));
   (* 289-296 *) (FTrue, MMethod "xray" (block [ARead "_xray"; ACall "_xray"; AOther]));
   (* 298-365 *) (FTrue, MMethod "execute" (block [AOther; AChoice (block [ARead "cont"; ACall "cont"]) (block [AOther; AChoice (block [ARead "procInfo"; ACall "procInfo"]) (block [AOther;
     AChoice (block [ARead "procList"; ACall "procList"]) (block [AOther; AChoice (block [ARead "attachProcess"; AOther; ACall "attachProcess"]) (block [AOther; AChoice (block [ARead
     "process"; AOther]) (block [AOther; AChoice (block [ARead "process"; AOther]) (block [AOther; AChoice (block [ARead "gcore"; ARead "process"; ACall "gcore"]) (block [AOther; AChoice
     (block [ARead "backtrace"; ACall "backtrace"]) (block [AOther; AChoice (block [ARead "where"; AOther; ACall "where"]) (block [AOther; AChoice (block [ARead "where"; AOther; ACall
     "where"]) (block [AOther; AChoice (block [ARead "process"; AOther]) (block [AOther; AChoice (block [ARead "debuggerInfo"; ACall "debuggerInfo"]) (block [AOther; AChoice (block [ARead
     "step"; ACall "step"]) (block [AOther; AChoice (block [ARead "step"; ACall "step"]) (block [AOther; AChoice (block [ARead "syscallTrace"; ACall "syscallTrace"]) (block [AOther; AChoice
     (block [ARead "help"; ACall "help"]) (block [AOther; AChoice (block [ARead "set"; ACall "set"]) (block [AOther; AChoice (block [ARead "until"; AOther; ACall "until"]) (block [AOther;
     AChoice (block [ARead "switch"; AOther; ACall "switch"]) (block [AOther; AChoice (block [ARead "breakpoint"; AOther; ACall "breakpoint"]) (block [AOther; AChoice (block [ARead
     "displayBreakpoints"; ACall "displayBreakpoints"]) (block [AOther; AChoice (block [ARead "displaySignals"; ACall "displaySignals"]) (block [AOther; AChoice (block [ARead "delete";
     AOther; ACall "delete"]) (block [AOther; AChoice (block [ARead "hexdump"; AOther; ACall "hexdump"]) (block [AOther; AChoice (block [ARead "signal"; AOther; ACall "signal"]) (block
     [AOther; AChoice (block [ARead "print_"; AOther; ACall "print_"]) (block [AOther; AChoice (block [ARead "addFollowTerm"; AOther; ACall "addFollowTerm"]) (block [AOther; AChoice (block
     [ARead "showFollowTerms"; ACall "showFollowTerms"]) (block [AOther; AChoice (block [ASet "followterms"]) (block [AOther; AChoice (block [ARead "xray"; ACall "xray"]) (block
     [AOther])])])])])])])])])])])])])])])])])])])])])])])])])])])])])]); AChoice (block [AOther; AReturn]) ASkip; AReturn]));
   (* 367-379 *) (FTrue, MMethod "parseSignum" (block [ATry (block [AOther; AReturn]) (block [AChoice ASkip (block [ARaise])]); ATry (block [AOther; AReturn]) (block [AChoice ASkip (block
     [ARaise])]); ATry (block [ARead "parseInteger"; ACall "parseInteger"; AReturn]) (block [AChoice (block [AOther; ARaise]) (block [ARaise])])]));
   (* 381-394 *) (FTrue, MMethod "signal" (block [ATry (block [ARead "parseSignum"; ACall "parseSignum"]) (block [AChoice (block [AOther; AReturn]) (block [ARaise])]); ARead "process";
     AFinally (block [ARead "cont"; ACall "cont"; AReturn]) (block [ATry (block [ARead "last_signal"; AOther]) (block [AChoice ASkip (block [ARaise])])])]));
   (* 396-407 *) (FTrue, MMethod "print_" (block [ATry (block [ARead "parseInteger"; ACall "parseInteger"]) (block [AChoice (block [AOther; AReturn]) (block [ARaise])]); AOther; ARead
     "process"; AOther; ALoop (block [AOther; AChoice (block [ABreak]) ASkip; AOther]); AReturn]));
   (* 409-427 *) (FTrue, MMethod "gcore" (block [AOther]));
   (* 429-493 *) (FTrue, MMethod "hexdump" (block [AOther; AChoice (block [ATry (block [ARead "parseInteger"; AOther; ACall "parseInteger"; ARead "parseInteger"; AOther; ACall
     "parseInteger"; AOther; AChoice (block [AOther; ARaise]) ASkip]) (block [AChoice (block [AOther; AReturn]) (block [ARaise])]); AOther]) (block [ATry (block [ARead "parseInteger"; ACall
     "parseInteger"]) (block [AChoice (block [AOther; AReturn]) (block [ARaise])]); AOther]); ALoop (block [AOther; ATry (block [ARead "process"; AOther]) (block [AChoice (block [AOther])
     (block [ARaise])]); AOther]); AOther; AReturn]));
   (* 495-501 *) (FTrue, MMethod "backtrace" (block [ARead "process"; AOther; AReturn]));
   (* 503-515 *) (FTrue, MMethod "where" (block [ATry (block [ARead "parseIntegers"; ACall "parseIntegers"]) (block [AChoice (block [AOther; AReturn]) (block [ARaise])]); AOther; ARead
     "process"; AOther; AReturn]));
   (* 517-518 *) (FTrue, MMethod "procInfo" (block [ARead "process"; AOther]));
   (* 520-525 *) (FTrue, MMethod "procList" (block [ARead "debugger"; AOther; ALoop (block [AOther; ARead "process"; AOther])]));
   (* 527-545 *) (FTrue, MMethod "set" (block [ATry (block [AOther; AChoice (block [AOther; AReturn]) ASkip; AOther]) (block [AChoice (block [AOther; AReturn]) (block [ARaise])]); ATry
     (block [ARead "parseInteger"; ACall "parseInteger"]) (block [AChoice (block [AOther; AReturn]) (block [ARaise])]); ATry (block [ARead "process"; AOther]) (block [AChoice (block [AOther;
     AReturn]) (block [ARaise])]); AOther; AReturn]));
   (* 547-556 *) (FTrue, MMethod "displayInstr" (block [ATry (block [AIf (FFlag "HAS_DISASSEMBLER") (block [ARead "process"; AOther]) (block [ARead "process"; AOther])]) (block [AChoice
     (block [AOther]) (block [ARaise])])]));
   (* 558-564 *) (FTrue, MMethod "attachProcess" (block [ATry (block [ARead "parseInteger"; ACall "parseInteger"]) (block [AChoice (block [AOther; AReturn]) (block [ARaise])]); ARead
     "debugger"; AOther; ARead "switchProcess"; ACall "switchProcess"]));
   (* 566-598 *) (FTrue, MMethod "step" (block [AChoice (block [ARead "displayInstr"; ACall "displayInstr"]) ASkip; AChoice (block [AChoice (block [ARead "process"; AOther; ARead
     "readInstrSize"; ACall "readInstrSize"; AChoice (block [AOther; AReturn]) ASkip; AOther]) ASkip; ARead "readInstrSize"; ACall "readInstrSize"; ARead "process"; AOther; ARead "process";
     AOther]) (block [ARead "process"; AOther]); ATry (block [ARead "process"; AOther]) (block [AOther; ARaise]); AReturn]));
   (* 600-601 *) (FTrue, MMethod "newProcess" (block [AOther]));
   (* 605-626 *) (FTrue, MMethod "syscallTrace" (block [ARead "process"; AOther; ARead "process"; AOther; ARead "process"; AOther; ARead "syscall_options"; AOther; AChoice (block [AOther;
     AChoice (block [AOther; ARead "show_pid"; AOther]) (block [AOther; ARead "show_pid"; AOther])]) ASkip; AReturn]));
   (* 628-637 *) (FTrue, MMethod "until" (block [ATry (block [ARead "parseInteger"; ACall "parseInteger"]) (block [AChoice (block [AOther; AReturn]) (block [ARaise])]); ARead "step"; ACall
     "step"; AChoice (block [AReturn]) ASkip; ARead "displayInstr"; ACall "displayInstr"; AReturn]));
   (* 639-658 *) (FTrue, MMethod "switch" (block [AChoice (block [ARead "debugger"; AOther; AChoice (block [AReturn]) ASkip; AOther; ARead "process"; AOther; ARead "switchProcess"; ACall
     "switchProcess"; AReturn]) ASkip; ATry (block [ARead "parseInteger"; ACall "parseInteger"]) (block [AChoice (block [AOther; AReturn]) (block [ARaise])]); ATry (block [ARead "debugger";
     AOther; ARead "switchProcess"; ACall "switchProcess"]) (block [AChoice (block [AOther; AReturn]) (block [ARaise])]); AReturn]));
   (* 660-664 *) (FTrue, MMethod "switchProcess" (block [ARead "process"; AOther; AChoice (block [AReturn]) ASkip; AOther; ASet "process"]));
   (* 666-671 *) (FTrue, MMethod "nextProcess" (block [ATry (block [ARead "debugger"; AOther; ARead "switchProcess"; ACall "switchProcess"]) (block [AChoice ASkip (block [ARaise])])]));
   (* 673-680 *) (FTrue, MMethod "displayBreakpoints" (block [ARead "debugger"; AOther]));
   (* 682-686 *) (FTrue, MMethod "displaySignals" (block [AOther]));
   (* 688-698 *) (FTrue, MMethod "readInstrSize" (block [AIf (FNot (FFlag "HAS_DISASSEMBLER")) (block [AReturn]) ASkip; ATry (block [ARead "process"; AOther; AReturn]) (block [AChoice (block
     [AOther; AReturn]) (block [ARaise])])]));
   (* 700-714 *) (FTrue, MMethod "breakpoint" (block [ATry (block [ARead "parseInteger"; ACall "parseInteger"]) (block [AChoice (block [AOther; AReturn]) (block [ARaise])]); ARead
     "readInstrSize"; ACall "readInstrSize"; ATry (block [ARead "process"; AOther]) (block [AChoice (block [AOther; AReturn]) (block [ARaise])]); AOther; AReturn]));
   (* 716-727 *) (FTrue, MMethod "delete" (block [ATry (block [ARead "parseInteger"; ACall "parseInteger"]) (block [AChoice (block [AOther; AReturn]) (block [ARaise])]); ARead "process";
     AOther; AChoice (block [AOther; AReturn]) ASkip; AOther; AReturn]));
   (* 729-736 *) (FTrue, MMethod "help" (block [AOther]));
   (* 738-742 *) (FTrue, MMethod "processSignal" (block [AOther; ARead "switchProcess"; AOther; ACall "switchProcess"; AOther; ARead "last_signal"; ARead "process"; AOther; ARead "process";
     AOther]));
   (* 744-747 *) (FTrue, MMethod "processExecution" (block [AOther; ARead "switchProcess"; AOther; ACall "switchProcess"; ARead "interrupt"; ACall "interrupt"]));
   (* 749-752 *) (FTrue, MMethod "debuggerInfo" (block [AOther]));
   (* 754-774 *) (FTrue, MMethod "interrupt" (block [ARead "debugger"; AOther; ALoop (block [AOther; AChoice (block [ABreak]) ASkip; ATry (block [AOther; AChoice (block [ABreak]) ASkip])
     (block [AChoice ASkip (block [ARaise])]); AOther]); AOther; ALoop (block [AOther; ATry (block [AOther]) (block [AChoice (block [AOther]) (block [ARaise])]); AOther])]));
   (* 776-784 *) (FTrue, MMethod "deleteProcess" (block [ATry (block [ARead "debugger"; AOther]) (block [AChoice (block [AReturn]) (block [ARaise])]); AOther; ARead "process"; AOther;
     AChoice (block [ARead "nextProcess"; ACall "nextProcess"]) ASkip]));
   (* 786-788 *) (FTrue, MMethod "restoreTerminal" (block [AOther]));
   (* 790-847 *) (FTrue, MMethod "mainLoop" (block [ATry (block [ARead "restoreTerminal"; ACall "restoreTerminal"; ARead "invite"; AOther]) (block [AChoice (block [AChoice (block [AOther;
     AReturn]) (block [AOther; ARead "interrupt"; ACall "interrupt"; AReturn])]) (block [ARaise])]); AChoice (block [ARead "previous_command"; AChoice (block [ARead "previous_command";
     AOther]) (block [AReturn])]) ASkip; ASet "previous_command"; AOther; AChoice (block [AReturn]) ASkip; ATry (block [AOther; ALoop (block [AOther; ATry (block [ARead "execute"; ACall
     "execute"; AOther]) (block [AChoice (block [AOther; ARaise]) (block [ARaise])]); AChoice (block [ABreak]) ASkip; AOther]); AChoice (block [ASet "previous_command"]) ASkip]) (block
     [AChoice (block [AChoice (block [ARead "interrupt"; ACall "interrupt"]) (block [AChoice (block [ARead "newProcess"; ACall "newProcess"]) (block [AChoice (block [ARead "processSignal";
     ACall "processSignal"]) (block [AChoice (block [AOther; ARead "nextProcess"; ACall "nextProcess"]) (block [AChoice (block [ARead "processExecution"; ACall "processExecution"]) (block
     [AOther; AChoice (block [ARead "deleteProcess"; AOther; ACall "deleteProcess"]) ASkip])])])])])]) (block [ARaise])]); AReturn]));
   (* 849-870 *) (FTrue, MMethod "runDebugger" (block [ARead "setupDebugger"; ACall "setupDebugger"; ATry (block [ARead "createProcess"; ACall "createProcess"; ASet "process"]) (block
     [AChoice (block [AOther; AReturn]) (block [ARaise])]); ARead "process"; AChoice (block [AReturn]) ASkip; ASet "invite"; ASet "previous_command"; ALoop (block [ARead "debugger"; AChoice
     (block [AReturn]) ASkip; ARead "mainLoop"; ACall "mainLoop"; AChoice (block [AReturn]) ASkip])]));
   (* 872-883 *) (FTrue, MMethod "main" (block [AOther; ASet "debugger"; ATry (block [ARead "runDebugger"; ACall "runDebugger"]) (block [AChoice (block [AOther]) (block [ARaise])]); ASet
     "process"; ARead "debugger"; AOther; ARead "restoreTerminal"; ACall "restoreTerminal"]))].
(** examples/itrace.py 21-49 *)
Definition cls_Tracer : class := Class "Tracer" (Some "SyscallTracer") [
   (* 22-26 *) (FTrue, MMethod "createCommonOptions" (block [AOther; ASuper "SyscallTracer" "createCommonOptions"]));
   (* 28-49 *) (FTrue, MMethod "syscallTrace" (block [ARead "options"; AOther; ALoop (block [AOther; ARead "debugger"; AOther]); AOther; ALoop (block [ARead "debugger"; AOther; ARead
     "debugger"; AOther; AChoice (block [AOther; AReturn]) ASkip; AOther; AChoice (block [AOther; AReturn]) ASkip]); ARead "debugger"]))].
(** runtests.py 118-157 *)
Definition cls_TestsFinder : class := Class "TestsFinder" (Some "object") [
   (* 120-124 *) (FTrue, MMethod "__init__" (block [ASet "_testsdir"; ASet "_includes"; ASet "_excludes"; ARead "find_available_tests"; ACall "find_available_tests"]));
   (* 126-135 *) (FTrue, MMethod "find_available_tests" (block [ASet "_test_factories"; ARead "_testsdir"; AOther; ALoop (block [AOther; ALoop (block [AOther; AChoice (block [ARead
     "_test_factories"; AOther]) ASkip; AOther]); AOther])]));
   (* 137-157 *) (FTrue, MMethod "load_tests" (block [AOther; ARead "_test_factories"; AOther; ALoop (block [AOther; ARead "_includes"; AChoice (block [AOther; ALoop (block [ARead
     "_includes"; AOther])]) ASkip; ARead "_excludes"; AChoice (block [AOther; ALoop (block [ARead "_excludes"; AOther])]) ASkip; AOther]); AReturn]))].
(** runtests.py 160-181 *)
Definition cls_TestResult : class := Class "TestResult" (Some "unittest.TextTestResult") [
   (* 162-164 *) (FTrue, MMethod "__init__" (block [ASuper "unittest.TextTestResult" "__init__"; ASet "leaks"]));
   (* 166-168 *) (FTrue, MMethod "startTest" (block [ASuper "unittest.TextTestResult" "startTest"; AOther]));
   (* 170-181 *) (FTrue, MMethod "addSuccess" (block [ASuper "unittest.TextTestResult" "addSuccess"; AOther; AChoice (block [ARead "showAll"; AChoice (block [ARead "stream"; AOther]) ASkip;
     ARead "leaks"; AOther; ARead "getDescription"; ACall "getDescription"; AOther]) ASkip]))].
(** runtests.py 184-195 *)
Definition cls_TestRunner : class := Class "TestRunner" (Some "unittest.TextTestRunner") [
   (FTrue, MAttr "resultclass");
   (* 187-195 *) (FTrue, MMethod "run" (block [ASuper "unittest.TextTestRunner" "run"; AOther; AChoice (block [ARead "stream"; AOther; ALoop (block [AOther; ARead "stream"; AOther; ALoop
     (block [ARead "stream"; AOther]); AOther])]) ASkip; AReturn]))].
(** tests/test_strace.py 17-110 *)
Definition cls_TestStrace : class := Class "TestStrace" (Some "unittest.TestCase") [
   (* 18-32 *) (FTrue, MMethod "strace" (block [AOther; ARead "assertIsNone"; AOther; ACall "assertIsNone"; AReturn]));
   (* 34-41 *) (FTrue, MMethod "assert_syscall" (block [ARead "strace"; AOther; ACall "strace"; AOther; ARead "assertTrue"; AOther; ACall "assertTrue"]));
   (* 43-47 *) (FTrue, MMethod "test_basic" (block [ARead "strace"; AOther; ACall "strace"; AOther; ALoop (block [AOther; ARead "assertTrue"; AOther; ACall "assertTrue"; AOther])]));
   (* 49-52 *) (FTrue, MMethod "test_exitcode" (block [AOther; ALoop (block [ARead "strace"; AOther; ACall "strace"; AOther; ARead "assertEqual"; ACall "assertEqual"; AOther])]));
   (* 54-57 *) (FTrue, MMethod "test_exitsignal" (block [AOther; ARead "strace"; AOther; ACall "strace"; AOther; ARead "assertEqual"; AOther; ACall "assertEqual"]));
   (* 59-67 *) (FTrue, MMethod "test_getcwd" (block [AOther; ARead "strace"; AOther; ACall "strace"; AOther; ARead "assertTrue"; ACall "assertTrue"; AOther; ARead "assertEqual"; AOther;
     ACall "assertEqual"]));
   (* 69-72 *) (FTrue, MMethod "test_open" (block [AOther; ARead "assert_syscall"; ACall "assert_syscall"]));
   (* 74-76 *) (FTrue, MMethod "test_chdir" (block [ARead "assert_syscall"; ACall "assert_syscall"]));
   (* 78-85 *) (FTrue, MMethod "test_rename" (block [ARead "assert_syscall"; ACall "assert_syscall"]));
   (* 87-92 *) (FTrue, MMethod "test_link" (block [ARead "assert_syscall"; ACall "assert_syscall"]));
   (* 94-105 *) (FTrue, MMethod "test_symlink" (block [AFinally (block [ARead "assert_syscall"; ACall "assert_syscall"]) (block [ATry (block [AOther]) (block [AChoice ASkip (block
     [ARaise])])])]));
   (* 107-110 *) (FTrue, MMethod "test_socket" (block [ARead "assert_syscall"; ACall "assert_syscall"]))].
(** tests/test_gdb.py 11-75 *)
Definition cls_TestGdb : class := Class "TestGdb" (Some "unittest.TestCase") [
   (* 13-33 *) (FTrue, MMethod "run_command" (block [AOther; ARead "assertEqual"; ACall "assertEqual"; AOther; AChoice (block [ARead "fail"; AOther; ACall "fail"]) ASkip; AReturn]));
   (* 35-37 *) (FTrue, MMethod "check_stdout" (block [ARead "assertTrue"; AOther; ACall "assertTrue"]));
   (* 39-49 *) (FTrue, MMethod "test_proc" (block [ARead "run_command"; ACall "run_command"; AOther; ALoop (block [ARead "assertTrue"; AOther; ACall "assertTrue"; AOther])]));
   (* 51-53 *) (FTrue, MMethod "test_print" (block [ARead "run_command"; ACall "run_command"; ARead "check_stdout"; ACall "check_stdout"]));
   (* 55-57 *) (FTrue, MMethod "test_where" (block [ARead "run_command"; ACall "run_command"; ARead "check_stdout"; ACall "check_stdout"]));
   (* 59-61 *) (FTrue, MMethod "test_regs" (block [ARead "run_command"; ACall "run_command"]));
   (* 63-65 *) (FTrue, MMethod "test_backtrace" (block [ARead "run_command"; ACall "run_command"]));
   (* 67-69 *) (FTrue, MMethod "test_maps" (block [ARead "run_command"; ACall "run_command"; ARead "check_stdout"; ACall "check_stdout"]));
   (* 71-75 *) (FTrue, MMethod "test_dbginfo" (block [ARead "run_command"; ACall "run_command"; ARead "check_stdout"; ACall "check_stdout"; ARead "check_stdout"; ACall "check_stdout"; ARead
     "check_stdout"; ACall "check_stdout"]))].
(** All classes *)
Definition classes : list class := [ext_Exception; ext_RuntimeError; ext_Structure; ext_Union; ext_object; ext_unittest_TestCase; ext_unittest_TextTestResult; ext_unittest_TextTestRunner;
  cls_PtraceError; cls_FunctionArgument; cls_FunctionCallOptions; cls_FunctionCall; cls_ProcError; cls_ProcessState; cls_Instruction; cls_FakeProcess; cls__WString; cls__DecodedInst;
  cls_register_structure; cls_user_regs_struct; cls_user_fpregs_struct; cls_user_fpxregs_struct; cls_BacktraceFrame; cls_Backtrace; cls_Breakpoint; cls_ChildError; cls_ChildPtraceError;
  cls_ProcessError; cls_MemoryMapping; cls_ProcessEvent; cls_ProcessExit; cls_ProcessExecution; cls_NewProcessEvent; cls_ProcessSignal; cls_SignalInfo; cls_DivisionByZero; cls_Abort;
  cls_StackOverflow; cls_InvalidMemoryAccess; cls_InvalidRead; cls_InvalidWrite; cls_InstructionError; cls_ChildExit; cls_DebuggerError; cls_PtraceDebugger; cls_PtraceProcess;
  cls_SyscallState; cls_in_addr; cls_in6_addr; cls_SyscallArgument; cls_PtraceSyscall; cls_Application; cls_SyscallTracer; cls_Gdb; cls_Tracer; cls_TestsFinder; cls_TestResult;
  cls_TestRunner; cls_TestStrace; cls_TestGdb].
