(** * ImpCode: the statements that are executed when the modules of the package and its scripts are imported.
    For every module: its imports, its conditions and the names it defines, in the order of the source.  Definitions that follow each other are put
    together: the names they define and the names that are read while they are executed (base classes, decorators, default values, bodies of
    classes, values; builtins are left out).  The bodies of functions are not executed; the part behind "if __name__ == '__main__'" is left out. *)
From Coq Require Import List Bool.
From Verif Require Import Platform ImpNames ImpModel.
Import ListNotations.
Open Scope name_scope.

(** ptrace/__init__.py 1-3 *)
Definition m_ptrace : list istmt :=
  [SFrom "ptrace.signames" [same "SIGNAMES"; same "signalName"];
   SFrom "ptrace.error" [same "PtraceError"];
   SFrom "ptrace.version" [same "VERSION"; same "__version__"]].
(** ptrace/cpu_info.py 1-69 *)
Definition m_ptrace_cpu_info : list istmt :=
  [STry
     [SFrom "os" [same "uname"];
      SSet "HAS_UNAME" (BConst true)]
      [ImportError_]
     [SSet "HAS_UNAME" (BConst false);
      SFrom "platform" [same "architecture"]];
   SFrom "sys" [same "byteorder"];
   SFrom "ctypes" [same "sizeof"; same "c_void_p"];
   SBind ["CPU_BIGENDIAN"] ["byteorder"];
   SSet "CPU_64BITS" (BHost ["sizeof"; "c_void_p"] (h_64bits));
   SIf (BName "CPU_64BITS")
     [SBind ["CPU_WORD_SIZE"; "CPU_MAX_UINT"] []]
     [SBind ["CPU_WORD_SIZE"; "CPU_MAX_UINT"] []];
   SIf (BName "HAS_UNAME")
     [SBind ["_machine"] ["uname"];
      SSet "CPU_PPC32" (BHost ["_machine"] (h_cpu_is PPC32));
      SSet "CPU_PPC64" (BHost ["_machine"] (h_cpu_is PPC64));
      SSet "CPU_I386" (BHost ["_machine"] (h_cpu_is I386));
      SSet "CPU_X86_64" (BHost ["_machine"] (h_cpu_is X86_64));
      SSet "CPU_ARM32" (BHost ["_machine"] (h_cpu_is ARM32));
      SSet "CPU_AARCH64" (BHost ["_machine"] (h_cpu_is AARCH64));
      SSet "CPU_RISCV32" (BHost ["_machine"] (h_cpu_is RISCV32));
      SSet "CPU_RISCV64" (BHost ["_machine"] (h_cpu_is RISCV64));
      SDel ["_machine"]]
     [SSet "CPU_PPC32" (BConst false);
      SSet "CPU_PPC64" (BConst false);
      SSet "CPU_I386" (BConst false);
      SSet "CPU_X86_64" (BConst false);
      SSet "CPU_ARM32" (BConst false);
      SSet "CPU_AARCH64" (BConst false);
      SSet "CPU_RISCV32" (BConst false);
      SSet "CPU_RISCV64" (BConst false);
      SBind ["bits"; "linkage"] ["architecture"];
      SIf (BHost ["bits"] (fun h => negb (h_64bits h)))
        [SSet "CPU_I386" (BConst true)]
        [SIf (BHost ["bits"] (h_64bits))
           [SSet "CPU_X86_64" (BConst true)]
           [SRaise ValueError_]]];
   SSet "CPU_INTEL" (BOr (BName "CPU_I386") (BName "CPU_X86_64"));
   SSet "CPU_POWERPC" (BOr (BName "CPU_PPC32") (BName "CPU_PPC64"));
   SBind ["CPU_ARM"] ["CPU_ARM32"; "CPU_AARCH64"];
   SSet "CPU_RISCV" (BOr (BName "CPU_RISCV32") (BName "CPU_RISCV64"))].
(** ptrace/ctypes_libc.py 1-11 *)
Definition m_ptrace_ctypes_libc : list istmt :=
  [SFrom "ctypes" [same "CDLL"];
   SFrom "ctypes.util" [same "find_library"];
   SBind ["LIBC_FILENAME"; "libc"] ["find_library"; "CDLL"]].
(** ptrace/ctypes_tools.py 1-186 *)
Definition m_ptrace_ctypes_tools : list istmt :=
  [SFrom "struct" [same "pack"; same "unpack"];
   SFrom "ptrace.cpu_info" [same "CPU_64BITS"];
   SFrom "ctypes" [same "cast"; same "POINTER"];
   SBind ["int2uint64"; "uint2int64"; "truncateWord32"; "truncateWord64"; "formatUintHex16"; "formatUintHex32"; "formatUintHex64"; "int2uint32"; "uint2int32"; "uint2int"; "int2uint"] [];
   SIf (BName "CPU_64BITS")
     [SBind ["ulong2long"; "long2ulong"; "formatWordHex"; "truncateWord"] ["uint2int64"; "int2uint64"; "formatUintHex64"; "truncateWord64"]]
     [SBind ["ulong2long"; "long2ulong"; "formatWordHex"; "truncateWord"] ["uint2int32"; "int2uint32"; "formatUintHex32"; "truncateWord32"]];
   SBind ["formatAddress"; "formatAddressRange"; "ntoh_ushort"; "ntoh_uint"; "word2bytes"; "bytes2word"; "bytes2type"; "bytes2array"] []].
(** ptrace/disasm.py 1-76 *)
Definition m_ptrace_disasm : list istmt :=
  [STry
     [SFrom "ptrace.cpu_info" [same "CPU_I386"; same "CPU_X86_64"];
      STry
        [SFrom "distorm3" [same "Decode"];
         SIf (BName "CPU_X86_64")
           [SFrom "distorm3" [("Decode64Bits", "DecodeBits")];
            SBind ["MAX_INSTR_SIZE"] []]
           [SIf (BName "CPU_I386")
              [SFrom "distorm3" [("Decode32Bits", "DecodeBits")];
               SBind ["MAX_INSTR_SIZE"] []]
              [SRaise ImportError_]];
         SBind ["DISTORM3"] []]
         [ImportError_]
        [SBind ["DISTORM3"] [];
         SFrom "ptrace.pydistorm" [same "Decode"];
         SIf (BName "CPU_X86_64")
           [SFrom "ptrace.pydistorm" [("Decode64Bits", "DecodeBits")];
            SBind ["MAX_INSTR_SIZE"] []]
           [SIf (BName "CPU_I386")
              [SFrom "ptrace.pydistorm" [("Decode32Bits", "DecodeBits")];
               SBind ["MAX_INSTR_SIZE"] []]
              [SRaise ImportError_]]];
      SFrom "ptrace" [same "PtraceError"];
      SBind ["Instruction"; "disassemble"; "disassembleOne"] [];
      SSet "HAS_DISASSEMBLER" (BConst true)]
      [ImportError_; OSError_]
     [SSet "HAS_DISASSEMBLER" (BConst false)]].
(** ptrace/error.py 1-63 *)
Definition m_ptrace_error : list istmt :=
  [SFrom "sys" [same "exc_info"];
   SFrom "traceback" [same "format_exception"];
   SFrom "logging" [same "ERROR"; same "getLogger"];
   SFrom "ptrace.logging_tools" [same "getLogFunc"; same "changeLogLevel"];
   SBind ["PTRACE_ERRORS"; "writeBacktrace"; "formatError"; "writeError"; "PtraceError"] ["ERROR"]].
(** ptrace/func_arg.py 1-105 *)
Definition m_ptrace_func_arg : list istmt :=
  [SFrom "ptrace.error" [same "PTRACE_ERRORS"; same "writeError"];
   SFrom "logging" [same "getLogger"];
   SFrom "ptrace.ctypes_tools" [same "formatAddress"];
   SBind ["FunctionArgument"] []].
(** ptrace/func_call.py 1-77 *)
Definition m_ptrace_func_call : list istmt :=
  [SFrom "ptrace.func_arg" [same "FunctionArgument"];
   SBind ["FunctionCallOptions"; "FunctionCall"] ["FunctionArgument"]].
(** ptrace/linux_proc.py 1-245 *)
Definition m_ptrace_linux_proc : list istmt :=
  [SFrom "os" [same "readlink"; same "listdir"];
   SFrom "resource" [same "getpagesize"];
   SFrom "ptrace.tools" [same "timestampUNIX"];
   SFrom "datetime" [same "timedelta"];
   SBind ["PAGE_SIZE"; "ProcError"; "openProc"; "readProc"; "readProcessProc"; "ProcessState"; "readProcessStat"; "readProcessStatm"; "readProcessProcList"; "readProcessLink"; "readProcesses"; "readProcessCmdline"; "searchProcessesByName"; "searchProcessByName"; "getUptime"; "getSystemBoot"] ["getpagesize"]].
(** ptrace/logging_tools.py 1-30 *)
Definition m_ptrace_logging_tools : list istmt :=
  [SFrom "ptrace.tools" [same "minmax"];
   SFrom "logging" [same "ERROR"; same "WARNING"; same "INFO"; same "DEBUG"];
   SBind ["getLogFunc"; "changeLogLevel"] []].
(** ptrace/mockup.py 1-15 *)
Definition m_ptrace_mockup : list istmt :=
  [SBind ["FakeProcess"] []].
(** ptrace/os_tools.py 1-26 *)
Definition m_ptrace_os_tools : list istmt :=
  [SFrom "sys" [same "platform"; same "version"; same "version_info"];
   SBind ["RUNNING_PYTHON3"; "RUNNING_PYPY"] ["version_info"; "version"];
   SSet "RUNNING_LINUX" (BHost ["platform"] (h_os_is Linux));
   SSet "RUNNING_FREEBSD" (BHost ["platform"] (h_os_is FreeBSD));
   SSet "RUNNING_OPENBSD" (BHost ["platform"] (h_os_is OpenBSD));
   SSet "RUNNING_MACOSX" (BHost ["platform"] (h_os_is MacOSX));
   SSet "RUNNING_BSD" (BOr (BName "RUNNING_FREEBSD") (BOr (BName "RUNNING_MACOSX") (BName "RUNNING_OPENBSD")));
   SSet "HAS_PROC" (BName "RUNNING_LINUX");
   SBind ["HAS_PTRACE"] ["RUNNING_BSD"; "RUNNING_LINUX"]].
(** ptrace/process_tools.py 1-124 *)
Definition m_ptrace_process_tools : list istmt :=
  [SFrom "ptrace.os_tools" [same "RUNNING_LINUX"];
   SIf (BName "RUNNING_LINUX")
     [SFrom "ptrace.linux_proc" [same "ProcError"; same "openProc"; same "readProcessLink"; same "readProcessProcList"; same "readProcessStat"]]
     [];
   SFrom "ptrace.signames" [same "signalName"];
   SFrom "os" [same "WCOREDUMP"; same "WEXITSTATUS"; same "WIFSIGNALED"; same "WIFSTOPPED"; same "WSTOPSIG"; same "WTERMSIG"];
   SBind ["dumpProcessInfo"; "formatProcessStatus"] []].
(** ptrace/profiler.py 1-45 *)
Definition m_ptrace_profiler : list istmt :=
  [SFrom "profile" [same "Profile"];
   SFrom "os" [same "unlink"];
   SFrom "io" [same "StringIO"];
   SImport "pstats" "pstats";
   SBind ["calibrate"; "runProfiler"] []].
(** ptrace/pydistorm.py 1-127 *)
Definition m_ptrace_pydistorm : list istmt :=
  [SFrom "ctypes" [same "cdll"; same "c_long"; same "c_ulong"; same "c_int"; same "c_uint"; same "c_char"; same "POINTER"; same "Structure"; same "addressof"; same "byref"; same "c_void_p"; same "create_string_buffer"; same "sizeof"; same "cast"];
   SBind ["int32_t"; "uint32_t"] ["c_int"; "c_uint"];
   SIf (BHost ["sizeof"; "c_ulong"] (h_64bits))
     [SBind ["int64_t"; "uint64_t"] ["c_long"; "c_ulong"]]
     [SFrom "ctypes" [same "c_longlong"; same "c_ulonglong"];
      SBind ["int64_t"; "uint64_t"] ["sizeof"; "c_longlong"; "c_ulonglong"]];
   SSet "SUPPORT_64BIT_OFFSET" (BConst true);
   SIf (BName "SUPPORT_64BIT_OFFSET")
     [SBind ["_OffsetType"] ["uint64_t"]]
     [SBind ["_OffsetType"] ["uint32_t"]];
   SBind ["LIB_FILENAME"] [];
   SIf (BHost ["cdll"; "LIB_FILENAME"] h_libdistorm) [SBind ["distorm"] []] [SRaise OSError_];
   SBind ["Decode16Bits"; "Decode32Bits"; "Decode64Bits"; "DECODERS"; "internal_decode"; "DECRES_NONE"; "DECRES_SUCCESS"; "DECRES_MEMORYERR"; "DECRES_INPUTERR"; "MAX_INSTRUCTIONS"; "MAX_TEXT_SIZE"; "_WString"; "_DecodedInst"; "Decode"] ["distorm"; "Structure"; "c_uint"; "c_char"; "_OffsetType"; "c_void_p"; "c_int"; "POINTER"]].
(** ptrace/signames.py 1-60 *)
Definition m_ptrace_signames : list istmt :=
  [SBind ["PREFERRED_NAMES"; "getSignalNames"; "SIGNAMES"; "signalName"] []].
(** ptrace/terminal.py 1-41 *)
Definition m_ptrace_terminal : list istmt :=
  [SFrom "termios" [same "tcgetattr"; same "tcsetattr"; same "ECHO"; same "TCSADRAIN"; same "TIOCGWINSZ"];
   SFrom "sys" [same "stdin"; same "stdout"];
   SFrom "fcntl" [same "ioctl"];
   SFrom "struct" [same "unpack"];
   SImport "os" "os";
   SBind ["TERMIO_LFLAGS"; "_terminalSize"; "terminalWidth"; "enableEchoMode"] []].
(** ptrace/tools.py 1-167 *)
Definition m_ptrace_tools : list istmt :=
  [SFrom "ctypes" [same "sizeof"];
   SFrom "ptrace.ctypes_tools" [same "formatUintHex16"; same "formatUintHex32"; same "formatWordHex"];
   SFrom "datetime" [same "datetime"; same "timedelta"];
   SFrom "os" [same "getenv"; same "access"; same "X_OK"; same "pathsep"; same "getcwd"];
   SFrom "os.path" [("join", "path_join"); same "isabs"; same "dirname"; same "normpath"];
   SBind ["dumpRegs"; "readBits"; "formatBits"; "LOCAL_TIMEZONE_OFFSET"; "UNIX_TIMESTAMP_T0"; "timestampUNIX"; "locateProgram"; "minmax"; "inverseDict"; "signal_to_exitcode"] ["datetime"]].
(** ptrace/version.py 1-5 *)
Definition m_ptrace_version : list istmt :=
  [SBind ["PACKAGE"; "VERSION"; "__version__"; "WEBSITE"; "LICENSE"] []].
(** ptrace/binding/__init__.py 1-28 *)
Definition m_ptrace_binding : list istmt :=
  [SFrom "ptrace.binding.func" [same "HAS_PTRACE_SINGLESTEP"; same "HAS_PTRACE_EVENTS"; same "HAS_PTRACE_IO"; same "HAS_PTRACE_SIGINFO"; same "HAS_PTRACE_GETREGS"; same "HAS_PTRACE_GETREGSET"; same "REGISTER_NAMES"; same "ptrace_attach"; same "ptrace_traceme"; same "ptrace_detach"; same "ptrace_kill"; same "ptrace_cont"; same "ptrace_syscall"; same "ptrace_setregs"; same "ptrace_peektext"; same "ptrace_poketext"; same "ptrace_peekuser"; same "ptrace_registers_t"];
   SIf (BName "HAS_PTRACE_EVENTS")
     [SFrom "ptrace.binding.func" [same "WPTRACEEVENT"; same "PTRACE_EVENT_FORK"; same "PTRACE_EVENT_VFORK"; same "PTRACE_EVENT_CLONE"; same "PTRACE_EVENT_EXEC"; same "ptrace_setoptions"; same "ptrace_geteventmsg"]]
     [];
   SIf (BName "HAS_PTRACE_SINGLESTEP")
     [SFrom "ptrace.binding.func" [same "ptrace_singlestep"]]
     [];
   SIf (BName "HAS_PTRACE_SIGINFO")
     [SFrom "ptrace.binding.func" [same "ptrace_getsiginfo"]]
     [];
   SIf (BName "HAS_PTRACE_IO")
     [SFrom "ptrace.binding.func" [same "ptrace_io"];
      SFrom "ptrace.binding.freebsd_struct" [same "ptrace_io_desc"; same "PIOD_READ_D"; same "PIOD_WRITE_D"; same "PIOD_READ_I"; same "PIOD_WRITE_I"]]
     [];
   SIf (BOr (BName "HAS_PTRACE_GETREGS") (BName "HAS_PTRACE_GETREGSET"))
     [SFrom "ptrace.binding.func" [same "ptrace_getregs"]]
     []].
(** ptrace/binding/cpu.py 1-79 *)
Definition m_ptrace_binding_cpu : list istmt :=
  [SFrom "ptrace.cpu_info" [same "CPU_POWERPC"; same "CPU_INTEL"; same "CPU_X86_64"; same "CPU_I386"; same "CPU_ARM32"; same "CPU_AARCH64"; same "CPU_RISCV"];
   SBind ["CPU_INSTR_POINTER"; "CPU_STACK_POINTER"; "CPU_FRAME_POINTER"; "CPU_SUB_REGISTERS"] [];
   SIf (BName "CPU_POWERPC")
     [SBind ["CPU_INSTR_POINTER"; "CPU_STACK_POINTER"] []]
     [SIf (BName "CPU_ARM32")
        [SBind ["CPU_INSTR_POINTER"; "CPU_STACK_POINTER"; "CPU_FRAME_POINTER"] []]
        [SIf (BName "CPU_AARCH64")
           [SBind ["CPU_INSTR_POINTER"; "CPU_STACK_POINTER"; "CPU_FRAME_POINTER"] []]
           [SIf (BName "CPU_RISCV")
              [SBind ["CPU_INSTR_POINTER"; "CPU_STACK_POINTER"; "CPU_FRAME_POINTER"] []]
              [SIf (BName "CPU_X86_64")
                 [SBind ["CPU_INSTR_POINTER"; "CPU_STACK_POINTER"; "CPU_FRAME_POINTER"; "CPU_SUB_REGISTERS"] []]
                 [SIf (BName "CPU_I386")
                    [SBind ["CPU_INSTR_POINTER"; "CPU_STACK_POINTER"; "CPU_FRAME_POINTER"; "CPU_SUB_REGISTERS"] []]
                    []]]]]];
   SIf (BName "CPU_INTEL")
     [SBind [] ["CPU_SUB_REGISTERS"]]
     []].
(** ptrace/binding/freebsd_struct.py 1-75 *)
Definition m_ptrace_binding_freebsd_struct : list istmt :=
  [SFrom "ctypes" [same "Structure"; same "c_int"; same "c_uint"; same "c_ulong"; same "c_void_p"; same "c_uint16"; same "c_uint32"; same "c_size_t"];
   SFrom "ptrace.cpu_info" [same "CPU_X86_64"];
   SBind ["PIOD_READ_D"; "PIOD_WRITE_D"; "PIOD_READ_I"; "PIOD_WRITE_I"] [];
   SIf (BName "CPU_X86_64")
     [SBind ["register_t"; "reg"] ["c_ulong"; "Structure"; "c_uint32"; "c_uint16"]]
     [SBind ["reg"] ["Structure"; "c_uint"]];
   SBind ["ptrace_io_desc"] ["Structure"; "c_int"; "c_void_p"; "c_size_t"]].
(** ptrace/binding/func.py 1-324 *)
Definition m_ptrace_binding_func : list istmt :=
  [SFrom "os" [same "strerror"];
   SFrom "ctypes" [same "addressof"; same "c_int"; same "get_errno"; same "set_errno"; same "sizeof"];
   SFrom "ptrace" [same "PtraceError"];
   SFrom "ptrace.ctypes_tools" [same "formatAddress"];
   SFrom "ptrace.os_tools" [same "RUNNING_LINUX"; same "RUNNING_BSD"; same "RUNNING_OPENBSD"];
   SFrom "ptrace.cpu_info" [same "CPU_64BITS"; same "CPU_WORD_SIZE"; same "CPU_POWERPC"; same "CPU_AARCH64"; same "CPU_RISCV"];
   SIf (BName "RUNNING_OPENBSD")
     [SFrom "ptrace.binding.openbsd_struct" [("reg", "ptrace_registers_t"); ("fpreg", "user_fpregs_struct")]]
     [SIf (BName "RUNNING_BSD")
        [SFrom "ptrace.binding.freebsd_struct" [("reg", "ptrace_registers_t")]]
        [SIf (BName "RUNNING_LINUX")
           [SFrom "ptrace.binding.linux_struct" [("user_regs_struct", "ptrace_registers_t"); same "user_fpregs_struct"; same "siginfo"; same "iovec_struct"];
            SIf (BNot (BName "CPU_64BITS"))
              [SFrom "ptrace.binding.linux_struct" [same "user_fpxregs_struct"]]
              []]
           [SRaise NotImplementedError_]]];
   SBind ["REGISTER_NAMES"] ["ptrace_registers_t"];
   SSet "HAS_PTRACE_SINGLESTEP" (BConst true);
   SSet "HAS_PTRACE_EVENTS" (BConst false);
   SSet "HAS_PTRACE_IO" (BConst false);
   SSet "HAS_PTRACE_SIGINFO" (BConst false);
   SSet "HAS_PTRACE_GETREGS" (BConst false);
   SSet "HAS_PTRACE_GETREGSET" (BConst false);
   SSet "HAS_PTRACE_SETREGS" (BConst false);
   SSet "HAS_PTRACE_SETREGSET" (BConst false);
   SBind ["THREAD_TRACE_FLAGS"; "pid_t"; "PTRACE_TRACEME"; "PTRACE_PEEKTEXT"; "PTRACE_PEEKDATA"; "PTRACE_PEEKUSER"; "PTRACE_POKETEXT"; "PTRACE_POKEDATA"; "PTRACE_POKEUSER"; "PTRACE_CONT"; "PTRACE_KILL"] ["c_int"];
   SIf (BName "HAS_PTRACE_SINGLESTEP")
     [SBind ["PTRACE_SINGLESTEP"] []]
     [];
   SIf (BName "RUNNING_OPENBSD")
     [SBind ["PTRACE_ATTACH"; "PTRACE_DETACH"] [];
      SSet "HAS_PTRACE_GETREGS" (BConst true);
      SBind ["PTRACE_GETREGS"; "PTRACE_SETREGS"; "PTRACE_GETFPREGS"; "PTRACE_SETFPREGS"] [];
      SSet "HAS_PTRACE_IO" (BConst true);
      SBind ["PTRACE_IO"] [];
      SSet "HAS_PTRACE_SINGLESTEP" (BConst true);
      SBind ["PTRACE_SINGLESTEP"] []]
     [SIf (BName "RUNNING_BSD")
        [SBind ["PTRACE_ATTACH"; "PTRACE_DETACH"; "PTRACE_SYSCALL"] [];
         SIf (BNot (BName "CPU_POWERPC"))
           [SSet "HAS_PTRACE_GETREGS" (BConst true);
            SBind ["PTRACE_GETREGS"] []]
           [];
         SBind ["PTRACE_SETREGS"] [];
         SSet "HAS_PTRACE_IO" (BConst true);
         SBind ["PTRACE_IO"] []]
        [SIf (BNot (BOr (BName "CPU_AARCH64") (BName "CPU_RISCV")))
           [SSet "HAS_PTRACE_GETREGS" (BConst true);
            SSet "HAS_PTRACE_SETREGS" (BConst true);
            SBind ["PTRACE_GETREGS"; "PTRACE_SETREGS"] []]
           [];
         SSet "HAS_PTRACE_GETREGSET" (BConst true);
         SSet "HAS_PTRACE_SETREGSET" (BConst true);
         SBind ["PTRACE_GETREGSET"; "PTRACE_SETREGSET"; "NT_PRSTATUS"; "PTRACE_ATTACH"; "PTRACE_DETACH"; "PTRACE_SYSCALL"] []]];
   SIf (BName "RUNNING_LINUX")
     [SBind ["PTRACE_GETFPREGS"; "PTRACE_SETFPREGS"] [];
      SIf (BNot (BName "CPU_64BITS"))
        [SBind ["PTRACE_GETFPXREGS"; "PTRACE_SETFPXREGS"] []]
        [];
      SSet "HAS_PTRACE_SIGINFO" (BConst true);
      SBind ["PTRACE_GETSIGINFO"; "PTRACE_SETSIGINFO"] [];
      SSet "HAS_PTRACE_EVENTS" (BConst true);
      SBind ["PTRACE_SETOPTIONS"; "PTRACE_GETEVENTMSG"; "THREAD_TRACE_FLAGS"] []]
     [];
   SBind ["PTRACE_O_TRACESYSGOOD"; "PTRACE_O_TRACEFORK"; "PTRACE_O_TRACEVFORK"; "PTRACE_O_TRACECLONE"; "PTRACE_O_TRACEEXEC"; "PTRACE_O_TRACEVFORKDONE"; "PTRACE_O_TRACEEXIT"; "PTRACE_EVENT_FORK"; "PTRACE_EVENT_VFORK"; "PTRACE_EVENT_CLONE"; "PTRACE_EVENT_EXEC"; "PTRACE_EVENT_VFORK_DONE"; "PTRACE_EVENT_EXIT"] [];
   STry
     [SFrom "cptrace" [("ptrace", "_ptrace")];
      SSet "HAS_CPTRACE" (BConst true)]
      [ImportError_]
     [SSet "HAS_CPTRACE" (BConst false);
      SFrom "ctypes" [same "c_long"; same "c_ulong"];
      SFrom "ptrace.ctypes_libc" [same "libc"];
      SBind ["_ptrace"] ["libc"; "c_ulong"]];
   SBind ["ptrace"; "ptrace_traceme"; "ptrace_attach"; "ptrace_detach"; "_peek"; "_poke"; "ptrace_peektext"; "ptrace_peekdata"; "ptrace_peekuser"; "ptrace_poketext"; "ptrace_pokedata"; "ptrace_pokeuser"; "ptrace_kill"] [];
   SIf (BName "HAS_PTRACE_EVENTS")
     [SBind ["WPTRACEEVENT"; "ptrace_setoptions"; "ptrace_geteventmsg"] []]
     [];
   SIf (BName "RUNNING_LINUX")
     [SBind ["ptrace_syscall"; "ptrace_cont"; "ptrace_getsiginfo"; "ptrace_setsiginfo"; "ptrace_getfpregs"; "ptrace_setfpregs"] [];
      SIf (BNot (BName "CPU_64BITS"))
        [SBind ["ptrace_getfpxregs"; "ptrace_setfpxregs"] []]
        [];
      SIf (BName "HAS_PTRACE_GETREGS")
        [SBind ["ptrace_getregs"] []]
        [SIf (BName "HAS_PTRACE_GETREGSET")
           [SBind ["ptrace_getregs"] []]
           []];
      SIf (BName "HAS_PTRACE_SETREGS")
        [SBind ["ptrace_setregs"] []]
        [SIf (BName "HAS_PTRACE_SETREGSET")
           [SBind ["ptrace_setregs"] []]
           []];
      SIf (BName "HAS_PTRACE_SINGLESTEP")
        [SBind ["ptrace_singlestep"] []]
        []]
     [SBind ["ptrace_syscall"; "ptrace_cont"] [];
      SIf (BName "HAS_PTRACE_GETREGS")
        [SBind ["ptrace_getregs"] []]
        [];
      SBind ["ptrace_setregs"] [];
      SIf (BName "HAS_PTRACE_SINGLESTEP")
        [SBind ["ptrace_singlestep"] []]
        []];
   SIf (BName "HAS_PTRACE_IO")
     [SBind ["ptrace_io"] []]
     []].
(** ptrace/binding/linux_struct.py 1-310 *)
Definition m_ptrace_binding_linux_struct : list istmt :=
  [SFrom "ctypes" [same "Structure"; same "Union"; same "sizeof"; same "c_char"; same "c_ushort"; same "c_int"; same "c_uint"; same "c_ulong"; same "c_void_p"; same "c_uint16"; same "c_uint32"; same "c_uint64"; same "c_size_t"];
   SFrom "ptrace.cpu_info" [same "CPU_64BITS"; same "CPU_PPC32"; same "CPU_PPC64"; same "CPU_ARM32"; same "CPU_AARCH64"; same "CPU_RISCV"];
   SBind ["pid_t"; "uid_t"; "clock_t"; "register_structure"; "user_regs_struct"; "user_fpregs_struct"] ["c_int"; "c_ushort"; "c_uint"; "Structure"; "CPU_PPC32"; "c_ulong"; "CPU_PPC64"; "CPU_ARM32"; "CPU_AARCH64"; "CPU_RISCV"; "CPU_64BITS"; "c_uint16"; "c_uint64"; "c_uint32"];
   SIf (BNot (BName "CPU_64BITS"))
     [SBind ["user_fpxregs_struct"] ["register_structure"; "c_ushort"; "c_ulong"]]
     [];
   SBind ["_sifields_sigfault_t"; "_sifields_sigchld_t"; "_sifields_t"; "siginfo"; "iovec_struct"] ["Union"; "c_void_p"; "Structure"; "pid_t"; "uid_t"; "c_int"; "clock_t"; "c_char"; "sizeof"; "c_size_t"]].
(** ptrace/binding/openbsd_struct.py 1-47 *)
Definition m_ptrace_binding_openbsd_struct : list istmt :=
  [SFrom "ctypes" [same "Structure"; same "c_int"; same "c_uint"; same "c_ulong"; same "c_void_p"; same "c_char"];
   SBind ["PIOD_READ_D"; "PIOD_WRITE_D"; "PIOD_READ_I"; "PIOD_WRITE_I"; "size_t"; "pid_t"; "reg"; "fpreg"; "ptrace_io_desc"] ["c_ulong"; "c_int"; "Structure"; "c_uint"; "c_char"; "c_void_p"]].
(** ptrace/debugger/__init__.py 1-9 *)
Definition m_ptrace_debugger : list istmt :=
  [SFrom "ptrace.debugger.breakpoint" [same "Breakpoint"];
   SFrom "ptrace.debugger.process_event" [same "ProcessEvent"; same "ProcessExit"; same "NewProcessEvent"; same "ProcessExecution"];
   SFrom "ptrace.debugger.ptrace_signal" [same "ProcessSignal"];
   SFrom "ptrace.debugger.process_error" [same "ProcessError"];
   SFrom "ptrace.debugger.child" [same "ChildError"];
   SFrom "ptrace.debugger.process" [same "PtraceProcess"];
   SFrom "ptrace.debugger.debugger" [same "PtraceDebugger"; same "DebuggerError"];
   SFrom "ptrace.debugger.application" [same "Application"]].
(** ptrace/debugger/application.py 1-91 *)
Definition m_ptrace_debugger_application : list istmt :=
  [SFrom "optparse" [same "OptionGroup"];
   SFrom "logging" [same "getLogger"; same "StreamHandler"; same "DEBUG"; same "INFO"; same "WARNING"; same "ERROR"];
   SFrom "sys" [same "exit"];
   SFrom "ptrace" [same "PtraceError"];
   SFrom "logging" [same "error"];
   SFrom "ptrace.tools" [same "locateProgram"];
   SFrom "ptrace.debugger" [same "ProcessExit"; same "DebuggerError"];
   SFrom "errno" [same "EPERM"];
   SFrom "ptrace.debugger.child" [same "createChild"];
   SBind ["Application"] []].
(** ptrace/debugger/backtrace.py 1-115 *)
Definition m_ptrace_debugger_backtrace : list istmt :=
  [SFrom "ptrace.ctypes_tools" [same "formatAddress"; same "formatWordHex"];
   SFrom "ptrace.cpu_info" [same "CPU_WORD_SIZE"; same "CPU_MAX_UINT"];
   SFrom "ptrace" [same "PtraceError"];
   SBind ["BacktraceFrame"; "Backtrace"; "getBacktrace"; "getBacktraceFrame"] []].
(** ptrace/debugger/breakpoint.py 1-66 *)
Definition m_ptrace_debugger_breakpoint : list istmt :=
  [SFrom "ptrace.ctypes_tools" [same "formatAddress"];
   SFrom "ptrace" [same "PtraceError"];
   SFrom "logging" [same "info"];
   SFrom "weakref" [same "ref"];
   SFrom "ptrace.cpu_info" [same "CPU_POWERPC"; same "CPU_WORD_SIZE"];
   SFrom "ptrace.ctypes_tools" [same "word2bytes"];
   SBind ["Breakpoint"] []].
(** ptrace/debugger/child.py 1-173 *)
Definition m_ptrace_debugger_child : list istmt :=
  [SFrom "os" [same "fork"; same "execvp"; same "execvpe"; same "waitpid"; same "close"; same "dup2"; same "pipe"; same "read"; same "write"; same "devnull"; same "sysconf"; same "set_inheritable"];
   SFrom "sys" [same "exc_info"];
   SFrom "traceback" [same "format_exception"];
   SFrom "ptrace.binding" [same "ptrace_traceme"];
   SFrom "ptrace" [same "PtraceError"];
   SFrom "sys" [same "exit"];
   SFrom "errno" [same "EINTR"];
   SImport "fcntl" "fcntl";
   SImport "pickle" "pickle";
   STry
     [SBind ["MAXFD"] ["sysconf"]]
      all_exceptions
     [SBind ["MAXFD"] []];
   SBind ["ChildError"; "ChildPtraceError"; "_set_cloexec_flag"; "_waitpid_no_intr"; "_read_no_intr"; "_write_no_intr"; "_createParent"; "_createChild"; "_execChild"; "createChild"] []].
(** ptrace/debugger/debugger.py 1-293 *)
Definition m_ptrace_debugger_debugger : list istmt :=
  [SFrom "logging" [same "info"; same "warning"; same "error"];
   SFrom "ptrace" [same "PtraceError"];
   SFrom "os" [same "waitpid"; same "WNOHANG"];
   SFrom "signal" [same "SIGTRAP"; same "SIGSTOP"];
   SFrom "errno" [same "ECHILD"];
   SFrom "ptrace.debugger" [same "PtraceProcess"; same "ProcessSignal"];
   SFrom "ptrace.binding" [same "HAS_PTRACE_EVENTS"];
   SFrom "time" [same "sleep"];
   SIf (BName "HAS_PTRACE_EVENTS")
     [SFrom "ptrace.binding.func" [same "PTRACE_O_TRACEFORK"; same "PTRACE_O_TRACEVFORK"; same "PTRACE_O_TRACEEXEC"; same "PTRACE_O_TRACESYSGOOD"; same "PTRACE_O_TRACECLONE"; same "THREAD_TRACE_FLAGS"]]
     [];
   SBind ["DebuggerError"; "PtraceDebugger"] ["PtraceError"]].
(** ptrace/debugger/memory_mapping.py 1-139 *)
Definition m_ptrace_debugger_memory_mapping : list istmt :=
  [SFrom "ptrace.os_tools" [same "HAS_PROC"];
   SFrom "ptrace.debugger.process_error" [same "ProcessError"];
   SFrom "ptrace.ctypes_tools" [same "formatAddress"];
   SImport "re" "re";
   SFrom "weakref" [same "ref"];
   SIf (BName "HAS_PROC")
     [SFrom "ptrace.linux_proc" [same "openProc"; same "ProcError"]]
     [];
   SBind ["PROC_MAP_REGEX"; "MemoryMapping"; "readProcessMappings"] ["re"]].
(** ptrace/debugger/parse_expr.py 1-76 *)
Definition m_ptrace_debugger_parse_expr : list istmt :=
  [SImport "re" "re";
   SBind ["REGISTER_REGEX"; "HEXADECIMAL_REGEX"; "EXPR_REGEX"; "replaceHexadecimal"; "parseExpression"] ["re"]].
(** ptrace/debugger/process.py 1-777 *)
Definition m_ptrace_debugger_process : list istmt :=
  [SFrom "ptrace.binding" [same "HAS_PTRACE_SINGLESTEP"; same "HAS_PTRACE_EVENTS"; same "HAS_PTRACE_SIGINFO"; same "HAS_PTRACE_IO"; same "HAS_PTRACE_GETREGS"; same "HAS_PTRACE_GETREGSET"; same "ptrace_attach"; same "ptrace_detach"; same "ptrace_cont"; same "ptrace_syscall"; same "ptrace_setregs"; same "ptrace_peektext"; same "ptrace_poketext"; same "REGISTER_NAMES"];
   SFrom "ptrace.os_tools" [same "HAS_PROC"; same "RUNNING_BSD"; same "RUNNING_PYTHON3"];
   SFrom "ptrace.tools" [same "dumpRegs"];
   SFrom "ptrace.cpu_info" [same "CPU_WORD_SIZE"];
   SFrom "ptrace.ctypes_tools" [same "bytes2word"; same "word2bytes"; same "bytes2type"; same "bytes2array"];
   SFrom "signal" [same "SIGTRAP"; same "SIGSTOP"; same "SIGKILL"];
   SFrom "ptrace.ctypes_tools" [same "formatAddress"; same "formatWordHex"];
   SFrom "ctypes" [same "sizeof"; same "c_char_p"];
   SFrom "logging" [same "info"; same "warning"; same "error"];
   SFrom "ptrace.error" [same "PtraceError"];
   SFrom "errno" [same "ESRCH"; same "EACCES"];
   SFrom "ptrace.debugger" [same "Breakpoint"; same "ProcessExit"; same "ProcessSignal"; same "NewProcessEvent"; same "ProcessExecution"];
   SFrom "os" [same "kill"; same "WIFSTOPPED"; same "WSTOPSIG"; same "WIFSIGNALED"; same "WTERMSIG"; same "WIFEXITED"; same "WEXITSTATUS"];
   SFrom "ptrace.disasm" [same "HAS_DISASSEMBLER"];
   SFrom "ptrace.debugger.backtrace" [same "getBacktrace"];
   SFrom "ptrace.debugger.process_error" [same "ProcessError"];
   SFrom "ptrace.debugger.memory_mapping" [same "readProcessMappings"];
   SFrom "ptrace.binding.cpu" [same "CPU_INSTR_POINTER"; same "CPU_STACK_POINTER"; same "CPU_FRAME_POINTER"; same "CPU_SUB_REGISTERS"];
   SFrom "ptrace.debugger.syscall_state" [same "SyscallState"];
   SIf (BName "HAS_PTRACE_SINGLESTEP")
     [SFrom "ptrace.binding" [same "ptrace_singlestep"]]
     [];
   SIf (BName "HAS_PTRACE_SIGINFO")
     [SFrom "ptrace.binding" [same "ptrace_getsiginfo"]]
     [];
   SIf (BName "HAS_PTRACE_IO")
     [SFrom "ctypes" [same "create_string_buffer"; same "addressof"];
      SFrom "ptrace.binding" [same "ptrace_io"; same "ptrace_io_desc"; same "PIOD_READ_D"; same "PIOD_WRITE_D"]]
     [];
   SIf (BName "HAS_PTRACE_EVENTS")
     [SFrom "ptrace.binding" [same "ptrace_setoptions"; same "ptrace_geteventmsg"; same "WPTRACEEVENT"; same "PTRACE_EVENT_FORK"; same "PTRACE_EVENT_VFORK"; same "PTRACE_EVENT_CLONE"; same "PTRACE_EVENT_EXEC"];
      SBind ["NEW_PROCESS_EVENT"] ["PTRACE_EVENT_FORK"; "PTRACE_EVENT_VFORK"; "PTRACE_EVENT_CLONE"]]
     [];
   SIf (BOr (BName "HAS_PTRACE_GETREGS") (BName "HAS_PTRACE_GETREGSET"))
     [SFrom "ptrace.binding" [same "ptrace_getregs"]]
     [SFrom "ptrace.binding" [same "ptrace_peekuser"; same "ptrace_registers_t"]];
   SIf (BName "HAS_DISASSEMBLER")
     [SFrom "ptrace.disasm" [same "disassemble"; same "disassembleOne"; same "MAX_INSTR_SIZE"]]
     [];
   SIf (BName "HAS_PROC")
     [SFrom "ptrace.linux_proc" [same "readProcessStat"]]
     [];
   SBind ["MIN_CODE_SIZE"; "MAX_CODE_SIZE"; "DEFAULT_NB_INSTR"; "DEFAULT_CODE_SIZE"; "PtraceProcess"] ["HAS_PTRACE_IO"; "HAS_PROC"]].
(** ptrace/debugger/process_error.py 1-8 *)
Definition m_ptrace_debugger_process_error : list istmt :=
  [SFrom "ptrace.error" [same "PtraceError"];
   SBind ["ProcessError"] ["PtraceError"]].
(** ptrace/debugger/process_event.py 1-61 *)
Definition m_ptrace_debugger_process_event : list istmt :=
  [SFrom "ptrace.signames" [same "signalName"];
   SBind ["ProcessEvent"; "ProcessExit"; "ProcessExecution"; "NewProcessEvent"] []].
(** ptrace/debugger/ptrace_signal.py 1-231 *)
Definition m_ptrace_debugger_ptrace_signal : list istmt :=
  [SFrom "logging" [same "error"];
   SFrom "ptrace.disasm" [same "HAS_DISASSEMBLER"];
   SFrom "signal" [same "SIGFPE"; same "SIGSEGV"; same "SIGABRT"];
   STry
     [SFrom "signal" [same "SIGCHLD"]]
      [ImportError_]
     [SBind ["SIGCHLD"] []];
   STry
     [SFrom "signal" [same "SIGBUS"]]
      [ImportError_]
     [SBind ["SIGBUS"] []];
   SFrom "ptrace.os_tools" [same "RUNNING_LINUX"];
   SFrom "ptrace.cpu_info" [same "CPU_64BITS"];
   SFrom "ptrace.debugger" [same "ProcessEvent"];
   SFrom "ptrace.error" [same "PtraceError"];
   SFrom "ptrace" [same "signalName"];
   SFrom "ptrace.debugger.signal_reason" [same "DivisionByZero"; same "Abort"; same "StackOverflow"; same "InvalidMemoryAccess"; same "InvalidRead"; same "InvalidWrite"; same "InstructionError"; same "ChildExit"];
   SFrom "ptrace.debugger.parse_expr" [same "parseExpression"];
   SImport "re" "re";
   SBind ["DEREF_REGEX"; "NAMED_WORD_SIZE"; "INSTR_REGEX"; "findDerefSize"; "evalFaultAddress"; "ProcessSignal"] ["ProcessEvent"]].
(** ptrace/debugger/signal_reason.py 1-184 *)
Definition m_ptrace_debugger_signal_reason : list istmt :=
  [SFrom "ptrace.ctypes_tools" [same "formatAddress"; same "formatWordHex"];
   SFrom "ptrace.error" [same "PtraceError"];
   SFrom "ptrace.cpu_info" [same "CPU_I386"; same "CPU_X86_64"];
   SFrom "ptrace.process_tools" [same "formatProcessStatus"];
   SImport "re" "re";
   SIf (BName "CPU_I386")
     [SSet "regex" (BConst true)]
     [SIf (BName "CPU_X86_64")
        [SSet "regex" (BConst true)]
        [SSet "regex" (BConst false)]];
   SIf (BName "regex")
     [SBind ["REGISTER_REGEX"] ["re"; "regex"]]
     [SBind ["REGISTER_REGEX"] []];
   SBind ["extractRegisters"; "findMappings"; "SignalInfo"; "DivisionByZero"; "Abort"; "StackOverflow"; "InvalidMemoryAccess"; "InvalidRead"; "InvalidWrite"; "InstructionError"; "ChildExit"] []].
(** ptrace/debugger/syscall_state.py 1-48 *)
Definition m_ptrace_debugger_syscall_state : list istmt :=
  [SFrom "ptrace.syscall" [same "PtraceSyscall"];
   SFrom "signal" [same "SIGTRAP"];
   SBind ["SyscallState"] []].
(** ptrace/syscall/__init__.py 1-4 *)
Definition m_ptrace_syscall : list istmt :=
  [SFrom "ptrace.syscall.names" [same "SYSCALL_NAMES"; same "SOCKET_SYSCALL_NAMES"];
   SFrom "ptrace.syscall.prototypes" [same "SYSCALL_PROTOTYPES"; same "FILENAME_ARGUMENTS"];
   SFrom "ptrace.syscall.syscall_argument" [same "SyscallArgument"];
   SFrom "ptrace.syscall.ptrace_syscall" [same "PtraceSyscall"; same "SYSCALL_REGISTER"; same "RETURN_VALUE_REGISTER"]].
(** ptrace/syscall/freebsd_constants.py 1-24 *)
Definition m_ptrace_syscall_freebsd_constants : list istmt :=
  [SFrom "ptrace.syscall.posix_constants" [same "SYSCALL_ARG_DICT"];
   SBind ["RLIMIT_RESOURCE"; "SIGPROCMASK_HOW"] ["SYSCALL_ARG_DICT"]].
(** ptrace/syscall/freebsd_syscall.py 1-409 *)
Definition m_ptrace_syscall_freebsd_syscall : list istmt :=
  [SBind ["SYSCALL_NAMES"; "SOCKET_SYSCALL_NAMES"] []].
(** ptrace/syscall/linux_constants.py 1-32 *)
Definition m_ptrace_syscall_linux_constants : list istmt :=
  [SFrom "ptrace.syscall.posix_constants" [same "SYSCALL_ARG_DICT"];
   SBind ["SIGSET_SIZE"; "FD_SETSIZE"; "RLIMIT_RESOURCE"; "SIGPROCMASK_HOW"] ["SYSCALL_ARG_DICT"]].
(** ptrace/syscall/linux_struct.py 1-63 *)
Definition m_ptrace_syscall_linux_struct : list istmt :=
  [SFrom "ctypes" [same "Structure"; same "c_char"; same "c_short"; same "c_int"; same "c_uint"; same "c_long"; same "c_ulong"];
   SBind ["time_t"; "suseconds_t"; "rlim_t"; "timeval"; "timespec"; "pollfd"; "rlimit"; "new_utsname"; "user_desc"] ["c_long"; "Structure"; "c_int"; "c_short"; "c_char"; "c_uint"; "c_ulong"]].
(** ptrace/syscall/names.py 1-25 *)
Definition m_ptrace_syscall_names : list istmt :=
  [SFrom "ptrace.cpu_info" [same "CPU_X86_64"; same "CPU_I386"; same "CPU_PPC64"; same "CPU_PPC32"; same "CPU_AARCH64"; same "CPU_RISCV32"; same "CPU_RISCV64"];
   SFrom "ptrace.os_tools" [same "RUNNING_LINUX"; same "RUNNING_FREEBSD"];
   SIf (BName "RUNNING_LINUX")
     [SIf (BName "CPU_X86_64")
        [SFrom "ptrace.syscall.linux.x86_64" [same "SYSCALL_NAMES"; same "SOCKET_SYSCALL_NAMES"]]
        [SIf (BName "CPU_I386")
           [SFrom "ptrace.syscall.linux.i386" [same "SYSCALL_NAMES"; same "SOCKET_SYSCALL_NAMES"]]
           [SIf (BName "CPU_PPC64")
              [SFrom "ptrace.syscall.linux.powerpc64" [same "SYSCALL_NAMES"; same "SOCKET_SYSCALL_NAMES"]]
              [SIf (BName "CPU_PPC32")
                 [SFrom "ptrace.syscall.linux.powerpc32" [same "SYSCALL_NAMES"; same "SOCKET_SYSCALL_NAMES"]]
                 [SIf (BName "CPU_AARCH64")
                    [SFrom "ptrace.syscall.linux.aarch64" [same "SYSCALL_NAMES"; same "SOCKET_SYSCALL_NAMES"]]
                    [SIf (BName "CPU_RISCV32")
                       [SFrom "ptrace.syscall.linux.riscv32" [same "SYSCALL_NAMES"; same "SOCKET_SYSCALL_NAMES"]]
                       [SIf (BName "CPU_RISCV64")
                          [SFrom "ptrace.syscall.linux.riscv64" [same "SYSCALL_NAMES"; same "SOCKET_SYSCALL_NAMES"]]
                          [SRaise NotImplementedError_]]]]]]]]
     [SIf (BName "RUNNING_FREEBSD")
        [SFrom "ptrace.syscall.freebsd_syscall" [same "SYSCALL_NAMES"; same "SOCKET_SYSCALL_NAMES"]]
        [SBind ["SYSCALL_NAMES"; "SOCKET_SYSCALL_NAMES"] []]]].
(** ptrace/syscall/posix_arg.py 1-134 *)
Definition m_ptrace_syscall_posix_arg : list istmt :=
  [SFrom "ptrace.tools" [same "readBits"; same "formatBits"];
   SFrom "ptrace.signames" [same "signalName"];
   SFrom "ptrace.ctypes_tools" [same "uint2int"];
   SBind ["MMAP_PROT_BITMASK"; "formatMmapProt"; "ACCESS_MODE_BITMASK"; "formatAccessMode"; "OPEN_FLAGS_BITMASK"; "formatOpenFlags"; "OPEN_MODE_BITMASK"; "formatOpenMode"; "CLONE_FLAGS_BITMASK"; "formatCloneFlags"; "AT_FDCWD"; "formatDirFd"] []].
(** ptrace/syscall/posix_constants.py 1-62 *)
Definition m_ptrace_syscall_posix_constants : list istmt :=
  [SFrom "ptrace.syscall.socketcall_constants" [same "SOCKET_FAMILY"; same "SOCKET_PROTOCOL"; same "SETSOCKOPT_LEVEL"; same "SETSOCKOPT_OPTNAME"];
   SBind ["SYSCALL_ARG_DICT"] ["SOCKET_FAMILY"; "SOCKET_PROTOCOL"; "SETSOCKOPT_LEVEL"; "SETSOCKOPT_OPTNAME"]].
(** ptrace/syscall/prototypes.py 1-1772 *)
Definition m_ptrace_syscall_prototypes : list istmt :=
  [SBind ["ALIASES"; "FILENAME_ARGUMENTS"; "SYSCALL_PROTOTYPES"; "copies"; "copy"; "orig"] []].
(** ptrace/syscall/ptrace_syscall.py 1-156 *)
Definition m_ptrace_syscall_ptrace_syscall : list istmt :=
  [SFrom "os" [same "strerror"];
   SFrom "errno" [same "errorcode"];
   SFrom "ptrace.cpu_info" [same "CPU_X86_64"; same "CPU_POWERPC"; same "CPU_I386"; same "CPU_ARM32"; same "CPU_AARCH64"; same "CPU_RISCV"];
   SFrom "ptrace.ctypes_tools" [same "ulong2long"; same "formatAddress"; same "formatWordHex"];
   SFrom "ptrace.func_call" [same "FunctionCall"];
   SFrom "ptrace.syscall" [same "SYSCALL_NAMES"; same "SYSCALL_PROTOTYPES"; same "SyscallArgument"];
   SFrom "ptrace.syscall.socketcall" [same "setupSocketCall"];
   SFrom "ptrace.os_tools" [same "RUNNING_LINUX"; same "RUNNING_BSD"];
   SFrom "ptrace.cpu_info" [same "CPU_WORD_SIZE"];
   SFrom "ptrace.binding.cpu" [same "CPU_INSTR_POINTER"];
   SIf (BName "CPU_POWERPC")
     [SBind ["SYSCALL_REGISTER"] []]
     [SIf (BName "CPU_ARM32")
        [SBind ["SYSCALL_REGISTER"] []]
        [SIf (BName "CPU_AARCH64")
           [SBind ["SYSCALL_REGISTER"] []]
           [SIf (BName "CPU_RISCV")
              [SBind ["SYSCALL_REGISTER"] []]
              [SIf (BName "RUNNING_LINUX")
                 [SIf (BName "CPU_X86_64")
                    [SBind ["SYSCALL_REGISTER"] []]
                    [SBind ["SYSCALL_REGISTER"] []]]
                 [SIf (BName "CPU_X86_64")
                    [SBind ["SYSCALL_REGISTER"] []]
                    [SBind ["SYSCALL_REGISTER"] []]]]]]];
   SIf (BName "CPU_ARM32")
     [SBind ["RETURN_VALUE_REGISTER"] []]
     [SIf (BName "CPU_AARCH64")
        [SBind ["RETURN_VALUE_REGISTER"] []]
        [SIf (BName "CPU_I386")
           [SBind ["RETURN_VALUE_REGISTER"] []]
           [SIf (BName "CPU_X86_64")
              [SBind ["RETURN_VALUE_REGISTER"] []]
              [SIf (BName "CPU_POWERPC")
                 [SBind ["RETURN_VALUE_REGISTER"] []]
                 [SIf (BName "CPU_RISCV")
                    [SBind ["RETURN_VALUE_REGISTER"] []]
                    [SRaise NotImplementedError_]]]]]];
   SBind ["PREFORMAT_ARGUMENTS"; "PtraceSyscall"] ["FunctionCall"]].
(** ptrace/syscall/socketcall.py 1-72 *)
Definition m_ptrace_syscall_socketcall : list istmt :=
  [SFrom "ptrace.cpu_info" [same "CPU_WORD_SIZE"];
   SFrom "ptrace.ctypes_tools" [same "ntoh_ushort"; same "ntoh_uint"];
   SFrom "ptrace.syscall" [same "SYSCALL_PROTOTYPES"];
   SFrom "ptrace.syscall.socketcall_constants" [same "SOCKETCALL"; same "SOCKET_FAMILY"];
   SFrom "ptrace.syscall.socketcall_struct" [same "sockaddr"; same "sockaddr_in"; same "sockaddr_in6"; same "sockaddr_un"];
   SFrom "ctypes" [same "c_int"];
   SFrom "ptrace.os_tools" [same "RUNNING_LINUX"];
   SFrom "socket" [same "AF_INET"; same "AF_INET6"; same "inet_ntoa"];
   SIf (BName "RUNNING_LINUX")
     [SFrom "socket" [same "AF_NETLINK"];
      SFrom "ptrace.syscall.socketcall_struct" [same "sockaddr_nl"]]
     [];
   SBind ["AF_FILE"; "formatOptVal"; "formatSockaddr"; "setupSocketCall"; "formatSockaddrInStruct"; "formatSockaddrIn6Struct"] []].
(** ptrace/syscall/socketcall_constants.py 1-94 *)
Definition m_ptrace_syscall_socketcall_constants : list istmt :=
  [SImport "socket" "socket";
   SBind ["SOCKETCALL"; "SOCKET_FAMILY"; "SOCKET_TYPE"; "formatSocketType"; "SOCKET_PROTOCOL"; "SETSOCKOPT_LEVEL"; "SETSOCKOPT_OPTNAME"] []].
(** ptrace/syscall/socketcall_struct.py 1-113 *)
Definition m_ptrace_syscall_socketcall_struct : list istmt :=
  [SFrom "ctypes" [same "Structure"; same "Union"; same "c_char"; same "c_ushort"; same "c_ubyte"; same "c_uint16"; same "c_uint32"];
   SFrom "ptrace.os_tools" [same "RUNNING_BSD"; same "RUNNING_LINUX"];
   SFrom "socket" [same "inet_ntoa"];
   SFrom "struct" [same "pack"];
   SFrom "ptrace.ctypes_tools" [same "ntoh_uint"; same "ntoh_ushort"];
   SBind ["ip_int2str"] [];
   SIf (BName "RUNNING_BSD")
     [SBind ["sa_family_t"] ["c_ubyte"]]
     [SBind ["sa_family_t"] ["c_ushort"]];
   SBind ["sockaddr"; "in_addr"; "in6_addr"; "sockaddr_in"; "sockaddr_in6"; "sockaddr_un"] ["Structure"; "RUNNING_BSD"; "c_ubyte"; "sa_family_t"; "c_uint32"; "Union"; "c_uint16"; "c_char"];
   SIf (BName "RUNNING_LINUX")
     [SBind ["sockaddr_nl"] ["Structure"; "sa_family_t"; "c_ushort"; "c_uint32"]]
     []].
(** ptrace/syscall/syscall_argument.py 1-248 *)
Definition m_ptrace_syscall_syscall_argument : list istmt :=
  [SFrom "ptrace.cpu_info" [same "CPU_WORD_SIZE"];
   SFrom "ptrace.ctypes_tools" [same "uint2int"; same "formatWordHex"; same "formatAddress"];
   SFrom "ptrace.signames" [same "signalName"];
   SFrom "ctypes" [same "c_int"];
   SFrom "ptrace.error" [same "PTRACE_ERRORS"; same "writeError"];
   SFrom "logging" [same "getLogger"; same "INFO"];
   SFrom "ptrace.func_arg" [same "FunctionArgument"];
   SFrom "ptrace.syscall.posix_arg" [same "formatMmapProt"; same "formatAccessMode"; same "formatOpenFlags"; same "formatCloneFlags"; same "formatDirFd"; same "formatOpenMode"];
   SFrom "ptrace.func_call" [same "FunctionCall"];
   SFrom "ptrace.syscall.socketcall" [same "setupSocketCall"; same "formatOptVal"; same "formatSockaddr"; same "formatSockaddrInStruct"; same "formatSockaddrIn6Struct"];
   SFrom "ptrace.syscall.socketcall_constants" [same "SOCKETCALL"];
   SImport "os" "os";
   SImport "re" "re";
   SFrom "ptrace.os_tools" [same "RUNNING_LINUX"; same "RUNNING_FREEBSD"];
   SFrom "ptrace.syscall" [same "FILENAME_ARGUMENTS"];
   SFrom "ptrace.syscall.socketcall_constants" [same "formatSocketType"];
   SIf (BName "RUNNING_LINUX")
     [SFrom "ptrace.syscall.linux_struct" [same "timeval"; same "timespec"; same "pollfd"; same "rlimit"; same "new_utsname"; same "user_desc"];
      SFrom "ptrace.syscall.linux_constants" [same "SYSCALL_ARG_DICT"; same "FD_SETSIZE"]]
     [SIf (BName "RUNNING_FREEBSD")
        [SFrom "ptrace.syscall.freebsd_constants" [same "SYSCALL_ARG_DICT"]]
        [SBind ["SYSCALL_ARG_DICT"] []]];
   SBind ["KNOWN_STRUCTS"] [];
   SIf (BName "RUNNING_LINUX")
     [SBind [] ["KNOWN_STRUCTS"; "timeval"; "timespec"; "pollfd"; "rlimit"; "new_utsname"; "user_desc"]]
     [];
   SBind ["KNOWN_STRUCTS"; "ARGUMENT_CALLBACK"; "POINTER_CALLBACK"; "STRUCT_CALLBACK"; "INTEGER_TYPES"; "iterBits"; "SyscallArgument"] ["KNOWN_STRUCTS"; "formatAccessMode"; "formatOpenFlags"; "formatOpenMode"; "formatDirFd"; "formatMmapProt"; "formatCloneFlags"; "formatSocketType"; "formatOptVal"; "formatSockaddr"; "formatSockaddrInStruct"; "formatSockaddrIn6Struct"; "FunctionArgument"]].
(** ptrace/syscall/linux/__init__.py 1-0 *)
Definition m_ptrace_syscall_linux : list istmt :=
  [].
(** ptrace/syscall/linux/aarch64.py 1-317 *)
Definition m_ptrace_syscall_linux_aarch64 : list istmt :=
  [SBind ["SYSCALL_NAMES"; "SOCKET_SYSCALL_NAMES"] []].
(** ptrace/syscall/linux/i386.py 1-329 *)
Definition m_ptrace_syscall_linux_i386 : list istmt :=
  [SBind ["SYSCALL_NAMES"; "SOCKET_SYSCALL_NAMES"] []].
(** ptrace/syscall/linux/powerpc32.py 1-439 *)
Definition m_ptrace_syscall_linux_powerpc32 : list istmt :=
  [SBind ["SYSCALL_NAMES"; "SOCKET_SYSCALL_NAMES"] []].
(** ptrace/syscall/linux/powerpc64.py 1-411 *)
Definition m_ptrace_syscall_linux_powerpc64 : list istmt :=
  [SBind ["SYSCALL_NAMES"; "SOCKET_SYSCALL_NAMES"] []].
(** ptrace/syscall/linux/riscv32.py 1-316 *)
Definition m_ptrace_syscall_linux_riscv32 : list istmt :=
  [SBind ["SYSCALL_NAMES"; "SOCKET_SYSCALL_NAMES"] []].
(** ptrace/syscall/linux/riscv64.py 1-327 *)
Definition m_ptrace_syscall_linux_riscv64 : list istmt :=
  [SBind ["SYSCALL_NAMES"; "SOCKET_SYSCALL_NAMES"] []].
(** ptrace/syscall/linux/x86_64.py 1-399 *)
Definition m_ptrace_syscall_linux_x86_64 : list istmt :=
  [SBind ["SYSCALL_NAMES"; "SOCKET_SYSCALL_NAMES"] []].
(** strace.py 1-285 *)
Definition m_strace : list istmt :=
  [SFrom "ptrace" [same "PtraceError"];
   SFrom "ptrace.debugger" [same "PtraceDebugger"; same "Application"; same "ProcessExit"; same "ProcessSignal"; same "NewProcessEvent"; same "ProcessExecution"];
   SFrom "ptrace.syscall" [same "SYSCALL_NAMES"; same "SYSCALL_PROTOTYPES"; same "FILENAME_ARGUMENTS"; same "SOCKET_SYSCALL_NAMES"];
   SFrom "ptrace.func_call" [same "FunctionCallOptions"];
   SFrom "sys" [same "stderr"; same "exit"];
   SFrom "optparse" [same "OptionParser"];
   SFrom "logging" [same "getLogger"; same "error"];
   SFrom "ptrace.error" [same "PTRACE_ERRORS"; same "writeError"];
   SFrom "ptrace.ctypes_tools" [same "formatAddress"];
   SFrom "ptrace.tools" [same "signal_to_exitcode"];
   SImport "sys" "sys";
   SImport "re" "re";
   SBind ["SyscallTracer"] ["Application"]].
(** gdb.py 1-887 *)
Definition m_gdb : list istmt :=
  [SFrom "ptrace" [same "PtraceError"];
   SFrom "ptrace.debugger" [same "PtraceDebugger"; same "Application"; same "ProcessExit"; same "NewProcessEvent"; same "ProcessSignal"; same "ProcessExecution"; same "ProcessError"];
   SFrom "optparse" [same "OptionParser"];
   SFrom "os" [same "getpid"];
   SFrom "sys" [same "stdout"; same "stderr"; same "exit"];
   SFrom "logging" [same "getLogger"; same "info"; same "warning"; same "error"];
   SFrom "ptrace.version" [("__version__", "VERSION"); same "WEBSITE"];
   SFrom "ptrace.error" [same "PTRACE_ERRORS"; same "writeError"];
   SFrom "ptrace.binding" [same "HAS_PTRACE_SINGLESTEP"];
   SFrom "ptrace.disasm" [same "HAS_DISASSEMBLER"];
   SFrom "ptrace.ctypes_tools" [same "truncateWord"; same "formatWordHex"; same "formatAddress"; same "formatAddressRange"; same "word2bytes"];
   SFrom "ptrace.process_tools" [same "dumpProcessInfo"];
   SFrom "ptrace.tools" [same "inverseDict"];
   SFrom "ptrace.func_call" [same "FunctionCallOptions"];
   SFrom "ptrace.signames" [same "signalName"; same "SIGNAMES"];
   SFrom "signal" [same "SIGTRAP"; same "SIGINT"];
   SFrom "ptrace.terminal" [same "enableEchoMode"; same "terminalWidth"];
   SFrom "errno" [same "ESRCH"];
   SFrom "ptrace.cpu_info" [same "CPU_POWERPC"];
   SFrom "ptrace.debugger" [same "ChildError"];
   SFrom "ptrace.debugger.memory_mapping" [same "readProcessMappings"];
   SFrom "ptrace.os_tools" [same "RUNNING_PYTHON3"];
   STry
     [SBind [] ["unichr"; "raw_input"]]
      [NameError_]
     [SBind ["unichr"; "raw_input"] []];
   SImport "re" "re";
   SIf (BHost ["stdout"] (fun _ => true))
     [STry
        [SImport "readline" "readline"]
         [ImportError_]
        []]
     [];
   SBind ["REGISTER_REGEX"; "SIGNALS"; "COMMANDS"; "formatAscii"; "formatHexa"; "getPointers"; "Gdb"] ["re"; "inverseDict"; "SIGNAMES"; "Application"]].
(** examples/itrace.py 1-53 *)
Definition m_itrace : list istmt :=
  [SImport "signal" "signal";
   SFrom "ptrace.debugger" [same "ProcessExit"; same "ProcessSignal"];
   SImport "strace" "strace";
   SBind ["Tracer"] ["strace"]].
(** examples/simple_dbg.py 1-61 *)
Definition m_simple_dbg : list istmt :=
  [SFrom "ptrace.debugger.debugger" [same "PtraceDebugger"];
   SFrom "ptrace.debugger.child" [same "createChild"];
   SFrom "ptrace.tools" [same "locateProgram"];
   SFrom "sys" [same "stderr"; same "argv"; same "exit"];
   SBind ["playWithProcess"; "traceProgram"; "main"] []].
(** All files: name, package, name in the package, statements *)
Definition code : list file :=
  [File "ptrace" (None) "ptrace" m_ptrace;
   File "ptrace.cpu_info" (Some "ptrace") "cpu_info" m_ptrace_cpu_info;
   File "ptrace.ctypes_libc" (Some "ptrace") "ctypes_libc" m_ptrace_ctypes_libc;
   File "ptrace.ctypes_tools" (Some "ptrace") "ctypes_tools" m_ptrace_ctypes_tools;
   File "ptrace.disasm" (Some "ptrace") "disasm" m_ptrace_disasm;
   File "ptrace.error" (Some "ptrace") "error" m_ptrace_error;
   File "ptrace.func_arg" (Some "ptrace") "func_arg" m_ptrace_func_arg;
   File "ptrace.func_call" (Some "ptrace") "func_call" m_ptrace_func_call;
   File "ptrace.linux_proc" (Some "ptrace") "linux_proc" m_ptrace_linux_proc;
   File "ptrace.logging_tools" (Some "ptrace") "logging_tools" m_ptrace_logging_tools;
   File "ptrace.mockup" (Some "ptrace") "mockup" m_ptrace_mockup;
   File "ptrace.os_tools" (Some "ptrace") "os_tools" m_ptrace_os_tools;
   File "ptrace.process_tools" (Some "ptrace") "process_tools" m_ptrace_process_tools;
   File "ptrace.profiler" (Some "ptrace") "profiler" m_ptrace_profiler;
   File "ptrace.pydistorm" (Some "ptrace") "pydistorm" m_ptrace_pydistorm;
   File "ptrace.signames" (Some "ptrace") "signames" m_ptrace_signames;
   File "ptrace.terminal" (Some "ptrace") "terminal" m_ptrace_terminal;
   File "ptrace.tools" (Some "ptrace") "tools" m_ptrace_tools;
   File "ptrace.version" (Some "ptrace") "version" m_ptrace_version;
   File "ptrace.binding" (Some "ptrace") "binding" m_ptrace_binding;
   File "ptrace.binding.cpu" (Some "ptrace.binding") "cpu" m_ptrace_binding_cpu;
   File "ptrace.binding.freebsd_struct" (Some "ptrace.binding") "freebsd_struct" m_ptrace_binding_freebsd_struct;
   File "ptrace.binding.func" (Some "ptrace.binding") "func" m_ptrace_binding_func;
   File "ptrace.binding.linux_struct" (Some "ptrace.binding") "linux_struct" m_ptrace_binding_linux_struct;
   File "ptrace.binding.openbsd_struct" (Some "ptrace.binding") "openbsd_struct" m_ptrace_binding_openbsd_struct;
   File "ptrace.debugger" (Some "ptrace") "debugger" m_ptrace_debugger;
   File "ptrace.debugger.application" (Some "ptrace.debugger") "application" m_ptrace_debugger_application;
   File "ptrace.debugger.backtrace" (Some "ptrace.debugger") "backtrace" m_ptrace_debugger_backtrace;
   File "ptrace.debugger.breakpoint" (Some "ptrace.debugger") "breakpoint" m_ptrace_debugger_breakpoint;
   File "ptrace.debugger.child" (Some "ptrace.debugger") "child" m_ptrace_debugger_child;
   File "ptrace.debugger.debugger" (Some "ptrace.debugger") "debugger" m_ptrace_debugger_debugger;
   File "ptrace.debugger.memory_mapping" (Some "ptrace.debugger") "memory_mapping" m_ptrace_debugger_memory_mapping;
   File "ptrace.debugger.parse_expr" (Some "ptrace.debugger") "parse_expr" m_ptrace_debugger_parse_expr;
   File "ptrace.debugger.process" (Some "ptrace.debugger") "process" m_ptrace_debugger_process;
   File "ptrace.debugger.process_error" (Some "ptrace.debugger") "process_error" m_ptrace_debugger_process_error;
   File "ptrace.debugger.process_event" (Some "ptrace.debugger") "process_event" m_ptrace_debugger_process_event;
   File "ptrace.debugger.ptrace_signal" (Some "ptrace.debugger") "ptrace_signal" m_ptrace_debugger_ptrace_signal;
   File "ptrace.debugger.signal_reason" (Some "ptrace.debugger") "signal_reason" m_ptrace_debugger_signal_reason;
   File "ptrace.debugger.syscall_state" (Some "ptrace.debugger") "syscall_state" m_ptrace_debugger_syscall_state;
   File "ptrace.syscall" (Some "ptrace") "syscall" m_ptrace_syscall;
   File "ptrace.syscall.freebsd_constants" (Some "ptrace.syscall") "freebsd_constants" m_ptrace_syscall_freebsd_constants;
   File "ptrace.syscall.freebsd_syscall" (Some "ptrace.syscall") "freebsd_syscall" m_ptrace_syscall_freebsd_syscall;
   File "ptrace.syscall.linux_constants" (Some "ptrace.syscall") "linux_constants" m_ptrace_syscall_linux_constants;
   File "ptrace.syscall.linux_struct" (Some "ptrace.syscall") "linux_struct" m_ptrace_syscall_linux_struct;
   File "ptrace.syscall.names" (Some "ptrace.syscall") "names" m_ptrace_syscall_names;
   File "ptrace.syscall.posix_arg" (Some "ptrace.syscall") "posix_arg" m_ptrace_syscall_posix_arg;
   File "ptrace.syscall.posix_constants" (Some "ptrace.syscall") "posix_constants" m_ptrace_syscall_posix_constants;
   File "ptrace.syscall.prototypes" (Some "ptrace.syscall") "prototypes" m_ptrace_syscall_prototypes;
   File "ptrace.syscall.ptrace_syscall" (Some "ptrace.syscall") "ptrace_syscall" m_ptrace_syscall_ptrace_syscall;
   File "ptrace.syscall.socketcall" (Some "ptrace.syscall") "socketcall" m_ptrace_syscall_socketcall;
   File "ptrace.syscall.socketcall_constants" (Some "ptrace.syscall") "socketcall_constants" m_ptrace_syscall_socketcall_constants;
   File "ptrace.syscall.socketcall_struct" (Some "ptrace.syscall") "socketcall_struct" m_ptrace_syscall_socketcall_struct;
   File "ptrace.syscall.syscall_argument" (Some "ptrace.syscall") "syscall_argument" m_ptrace_syscall_syscall_argument;
   File "ptrace.syscall.linux" (Some "ptrace.syscall") "linux" m_ptrace_syscall_linux;
   File "ptrace.syscall.linux.aarch64" (Some "ptrace.syscall.linux") "aarch64" m_ptrace_syscall_linux_aarch64;
   File "ptrace.syscall.linux.i386" (Some "ptrace.syscall.linux") "i386" m_ptrace_syscall_linux_i386;
   File "ptrace.syscall.linux.powerpc32" (Some "ptrace.syscall.linux") "powerpc32" m_ptrace_syscall_linux_powerpc32;
   File "ptrace.syscall.linux.powerpc64" (Some "ptrace.syscall.linux") "powerpc64" m_ptrace_syscall_linux_powerpc64;
   File "ptrace.syscall.linux.riscv32" (Some "ptrace.syscall.linux") "riscv32" m_ptrace_syscall_linux_riscv32;
   File "ptrace.syscall.linux.riscv64" (Some "ptrace.syscall.linux") "riscv64" m_ptrace_syscall_linux_riscv64;
   File "ptrace.syscall.linux.x86_64" (Some "ptrace.syscall.linux") "x86_64" m_ptrace_syscall_linux_x86_64;
   File "strace" (None) "strace" m_strace;
   File "gdb" (None) "gdb" m_gdb;
   File "itrace" (None) "itrace" m_itrace;
   File "simple_dbg" (None) "simple_dbg" m_simple_dbg].
