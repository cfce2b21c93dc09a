# Formal model of python-ptrace: design

## Method

The code is modelled function by function as total, computable Gallina functions
(shallow embedding).  Every definition carries a comment with the file and lines it
models and the simplifications made.  Everything outside the code base (kernel, file
system, user, disassembler, user regular expressions, libc) is an argument of the
model, so that the theorems hold for *every* behaviour of it.

Representation:

* Python `int` = `Z`; `Z.land/lor/lnot/shiftl/shiftr` have Python's semantics on
  negative numbers too.
* `str` and `bytes` = `list ascii`.  `str` is restricted to the code points 0..255;
  decoding with the file system encoding is an argument where it matters.
* `dict` = association list in insertion order; `set` = list without duplicates.
* exceptions = values: `res A := Ok a | Err e` for pure code, `out A := Ret a | Raise x`
  for code with state.  Messages of exceptions are dropped unless they are shown.
* loops = structural recursion on the data they consume, or on a fuel argument whose
  exhaustion is the error `EDiverges`.  Theorems quantify over the fuel; a statement
  about a result `Ok`/`Ret` thus covers every run that ends.
* platform constants (word size, byte order, CPU, system, optional kernel features) =
  a record that is an argument, never fixed; a theorem restricted to some platforms
  says so in its hypotheses.
* regular expressions = an AST interpreted by a backtracking matcher with the priority
  semantics of `re`; the expressions of the repository are transcribed literally, and
  RegexProofs relates the matcher to a denotational semantics (RegexSpec).
* kernel = functions from the number of requests made so far (or the whole history) to
  answers; requests are recorded.  A property about what the program does to the system
  is a property of the recorded requests.
* memory = function from addresses to optional bytes; file descriptors = function from
  numbers to optional descriptions.
* Python's `eval` on the alphabet that reaches it = the evaluator PyEval, with its own
  grammar proofs.

Files: for each area `XModel.v` (model only), `XSpec.v` (vocabulary of the statements,
independent of how the model computes), `XProofs.v`, `XProofs2.v`... (lemmas), `XProps.v`
(the theorems and nothing else; each is closed by `exact lemma`, followed by
`Print Assumptions`, with an `Example` showing a concrete non-trivial case).

Names: `cNN_...` belongs to property CNN; `..._partial` covers a part of the property;
`..._refuted` exhibits an input on which the code violates the property (a finding
about the code, not about the model).

## Coverage

| Source | Model |
| --- | --- |
| ptrace/ctypes_tools.py | IntModel |
| ptrace/tools.py, ptrace/logging_tools.py, ptrace/syscall/posix_arg.py | ToolsModel (dates: HostModel) |
| ptrace/cpu_info.py, ptrace/os_tools.py | Platform, HostModel |
| ptrace/terminal.py | HostModel |
| ptrace/error.py, ptrace/profiler.py, application.py (log level) | LogModel |
| ptrace/binding/func.py, ptrace/ctypes_libc.py, cptrace/cptrace.c | CallModel, ReqModel |
| ptrace/binding/cpu.py, ptrace/binding/*_struct.py | RegModel, StructModel, CtModel |
| ptrace/debugger/process.py: memory | MemModel |
| ptrace/debugger/process.py: registers | RegModel |
| ptrace/debugger/process.py: life, resuming, waiting | DbgModel |
| ptrace/debugger/process.py: dumps, disassembly | TraceModel |
| ptrace/debugger/breakpoint.py | BreakModel |
| ptrace/debugger/memory_mapping.py | MapModel |
| ptrace/debugger/backtrace.py | TraceModel |
| ptrace/debugger/parse_expr.py | ExprModel, PyEval |
| ptrace/debugger/debugger.py, process_event.py, process_error.py | DbgModel, SigModel |
| ptrace/debugger/ptrace_signal.py, signal_reason.py | FaultModel |
| ptrace/debugger/syscall_state.py, ptrace/syscall/ptrace_syscall.py | SysModel |
| ptrace/debugger/child.py | ChildModel |
| ptrace/debugger/application.py | StraceModel, LogModel |
| ptrace/disasm.py, ptrace/pydistorm.py | TraceModel, DecodeModel |
| ptrace/func_arg.py, func_call.py, syscall/syscall_argument.py, socketcall*.py, linux_struct.py | ArgModel |
| ptrace/syscall tables (names, prototypes, constants, all architectures) | TabModel |
| ptrace/linux_proc.py, ptrace/process_tools.py | ProcModel, SigModel |
| ptrace/signames.py | SigModel |
| gdb.py | GdbModel |
| gdb.py: sessions, xray | SessionModel, XrayModel |
| strace.py | StraceModel |
| strace.py: written lines; options of strace.py and gdb.py | OutModel; CmdModel |
| detaching, leaving the debugger | LeaveModel |
| examples/itrace.py | ItraceModel |
| examples/simple_dbg.py | SimpleModel |
| doc/*.rst examples, test_doc.py, ptrace/mockup.py | DocModel |
| SYSCALL_PROTOTYPES.codegen.py | GenModel |
| runtests.py | RunModel, RunMainModel |
| tests/test_strace.py, tests/test_gdb.py | SuiteModel, GSuiteModel |
| import statements and module level of all files | ImpModel, ImpCode |
| global names read by all functions | UseModel, UseCode |
| attributes of self in all classes | AttrModel, AttrCode |


Not modelled: setup.py, setup_cptrace.py, doc/conf.py, `getUptime` and fractions of seconds
(floats), `calibrate` of ptrace/profiler.py.

Behaviour of the runtime taken as given: integer and text functions of PyBase, `int()` of
PyInt, `re` as RegexModel, ctypes layout as StructModel/CtModel, struct.pack/unpack as
explicit byte lists.

## Trusted base

* The Coq 8.16.1 kernel.  `Print Assumptions` of every theorem answers "Closed under the
  global context".
* The correspondence between /repo and the model files (comments cite lines; the tables of
  TabModel were transcribed by a script).
* The specification files, in particular the numbers of the system headers in KernSpec and
  ReqSpec, which are not taken from /repo.  Only the headers of Linux on x86 are installed
  in the sandbox where this was written; the numbers of other systems and architectures
  could not be compared with the original files there.

## Testing of the theorems

The definitions of the models are edited mechanically and by hand in a copy outside this
directory, one edit at a time, and the proofs are compiled again.  `seeded/LOG.jsonl` has
one line per edit with the theorems that failed.  An edit that broke nothing either led to
a new or stronger theorem, or the line says why no theorem should see it.

## Plan and outcome per property

For every property: how it is modelled and proved, then the outcome (the notes of MANIFEST.json).

* **C01 Two's-complement conversions** - IntModel: Z bit operations exactly as written. Proof by modular arithmetic (Z.land with 2^n-1 = mod).
  Proved.
* **C02 Hexadecimal formatting of words and addresses** - IntModel + PyBase number formatting (own base-b digit generator with proved read-back).
  Proved.
* **C03 Network byte order conversions** - IntModel: struct.pack/unpack as explicit byte lists per host order. Big-endian host expected to be refuted.
  Partial: Proved for little-endian hosts; on big-endian hosts the functions swap bytes although none should be swapped (c03_ntoh_big_endian_refuted): the code violates the property there. Involution and range check proved on all platforms. c03_big_endian_exact: exactly when the result is right there.
* **C04 CPU word <-> bytes codec** - IntModel: same byte lists at word size 4/8.
  Proved.
* **C05 Bit-mask decomposition loses nothing** - ToolsModel. Induction over the mask list, bitwise extensionality (Z.bits_inj).
  Proved.
* **C06 Flag arguments of open/access/mmap/clone** - ToolsModel with the literal tables; table facts by computation, value quantified by the C05 lemmas.
  Partial: Proved, with two corner cases where the shipped tables make the text differ from the property: O_TMPFILE is shown as O_DIRECTORY|O_TMPFILE and the clone termination signal is listed twice (refuted theorems).
* **C07 Range restriction and log levels** - ToolsModel/LogModel; linear arithmetic.
  Proved.
* **C08 Sub-register reads** - RegModel: literal CPU tables; bit extensionality. Expected refutations: x86_64 eax family, iopl.
  Partial: Full registers proved on every Linux architecture, sub-registers and flags for every correct table entry. Violated by the code: eax..edx of x86_64 are the upper halves, iopl keeps one bit only, flags are unknown on FreeBSD/amd64. c08_eax_exact, c08_iopl_exact: exactly what is read then.
* **C09 Register write then read** - RegModel; expected refutation for shifted sub-registers; positive theorem for shift 0.
  Partial: Proved for full registers and sub-registers starting at bit 0. Violated by the code for shifted sub-registers (ah overwrites the low byte); writing eax on x86_64 raises TypeError. c09_high_exact: exactly when.
* **C10 Word-wise memory read is exact** - MemModel: memory = total function address -> optional byte; PEEK on aligned words. Induction over words.
  Proved.
* **C11 readBytes does not depend on the access path** - MemModel with /proc/pid/mem as an oracle over the same memory.
  Partial: Equality of the paths proved for fully mapped ranges. The code violates 'exactly size bytes or raise': short data at the end of a mapping, zero padding on BSD, OverflowError for addresses >= 2^63 (refuted theorems with witnesses). c11_high_exact, c11_short_exact, c11_closed_exact: what happens then for any address and any file.
* **C12 writeBytes changes exactly the requested bytes** - MemModel; induction over words, frame lemma.
  Partial: Proved for the ctypes backend and, whenever the call succeeds, for the C extension. Violations shown: the C extension rejects words >= 2^63, BSD reports short writes as success.
* **C13 Failed writeBytes never touches foreign bytes** - MemModel; same induction with failure.
  Proved.
* **C14 C strings are read up to the NUL or the limit** - MemModel; loop invariant. Truncated flag expected to be refuted.
  Partial: Content proved exact; 'flag false => not cut' proved. The converse is violated by the code (flag set although nothing was cut), and the fallback path fails at the end of a mapping.
* **C15 Structure and array reads** - MemModel; list slicing.
  Partial: Proved for fully mapped structures; a structure running past the end of the mapping makes the code read beyond its buffer (refuted theorem). c15_struct_exact: exactly when this happens.
* **C16 Breakpoints restore the code they replaced** - BreakModel on top of MemModel; invariant: memory = original overlaid with live traps.
  Partial: Proved for any interleaving without overlapping live breakpoints (Linux, ctypes). The code accepts overlapping breakpoints; removing them in creation order leaves a trap in memory (refuted), removing them in the reverse order restores it (c16_nested).
* **C17 Breakpoint lookup** - BreakModel.
  Proved.
* **C18 Memory search finds every occurrence** - MapModel; loop invariant on (offset, buffer); strong induction on remaining length.
  Proved.
* **C19 /proc/pid/maps parsing round-trips** - Regex engine (backtracking semantics of re) + MapModel with the regular expression transcribed; round trip against a printer of the kernel format.
  Partial: Round trip proved for device numbers below 0x1000 and file names without carriage return and without leading/trailing white space. The code violates the property otherwise: minor numbers of four digits are rejected, trailing white space is lost, a carriage return cuts the line (refuted theorems).
* **C20 /proc/pid/stat parsing is robust to the program name** - ProcModel; rsplit lemma.
  Partial: Parsing of the text proved for every program name. Through the file: the file is opened in text mode with universal newlines, so a carriage return in the name is changed (c20_carriage_return_refuted); proved for all other names. c20_file_exact: exactly what is returned.
* **C21 NUL-separated process lists round-trip** - ProcModel; split/join lemmas.
  Partial: Round trip proved for arguments without carriage return; with one the code returns a newline instead (refuted theorem). c21_list_exact: exactly what is returned.
* **C22 Environment dump truncation** - ProcModel; induction on the variable list.
  Partial: Selection, order, total and counts proved for every environment. An environment string without '=' makes the dump raise TypeError (c22_no_equals_refuted). c22_fails_exact: exactly when.
* **C23 Wait status decoding** - DbgModel/SigModel; wait macros as bit operations.
  Proved.
* **C24 Exit messages** - DbgModel/SigModel.
  Proved.
* **C25 Signal names** - SigModel; arbitrary namespace as association list.
  Proved.
* **C26 Process registry consistency** - DbgModel: debugger+processes as a state machine against a kernel that answers arbitrarily. Invariant preserved by every operation.
  Partial: Proved for every history that does not call deleteProcess() directly (nothing in the library does that before detaching); with direct calls the code can make list and dict disagree (refuted).
* **C27 A failed addProcess leaves nothing behind** - DbgModel; expected refutation for non-exit failures, proved for exit.
  Partial: The code violates the property: the error path of addProcess clears is_attached before calling detach(), which is then a no-op, and a failing setoptions() is not handled (three refuted theorems). Proved: duplicate pid, refused attach, and death during the handshake leave nothing behind; and exactly when the process is left in the registry on Linux: whenever the error is not the end of that very process (c27_left_partial).
* **C28 detach is idempotent** - DbgModel; trace of kernel calls.
  Partial: At most one PTRACE_DETACH over every history, including direct deletions; exact effect when the kernel accepts. When it refuses, the code leaves the process registered (refuted). c28_failure_exact: what happens then in any state.
* **C29 quit terminates children and only detaches attached processes** - DbgModel; induction on the list.
  Partial: Signals only to started processes for every kernel (Linux); order and exact requests for a kernel that accepts them; nothing left if every registered process is attached. Violated after a failed addProcess (refuted).
* **C30 Waiting for one process returns only its events** - DbgModel.
  Proved.
* **C31 Waiting for any process polls fairly in order** - DbgModel.
  Proved.
* **C32 waitSignals filter** - DbgModel.
  Proved.
* **C33 SIGTRAP is never delivered by resuming** - DbgModel.
  Proved.
* **C34 Syscall enter and exit alternate** - SysModel; fold over the stop history.
  Partial: Alternation, pairing and ignored calls proved for every sequence of stops and clear() calls that raises no exception. The code violates the execve part: the stop after a FAILED execve is skipped as well, so the enter of the next call is lost (c34_failed_exec_refuted).
* **C35 Syscall results** - SysModel.
  Proved.
* **C36 Syscall arguments** - SysModel with literal register tables and prototypes.
  Proved.
* **C37 Function call formatting** - ArgModel; list lemmas.
  Proved.
* **C38 Integer arguments are shown with their value** - ArgModel; expected refutation for size_t/long on 64-bit.
  Partial: Exact characterisation: the number is shown iff it fits a signed 32-bit integer (or, for unsigned int/unsigned long/u32, iff the register holds exactly this number). The code violates the property for large size_t/long, for uid_t/gid_t/socklen_t >= 2^31 and for unsigned int with garbage in the upper half of the register (refuted with witnesses).
* **C39 String arrays are bounded** - ArgModel; expected refutation of 'more than N' text.
  Partial: All clauses proved except "more than N only when there are more than N": the remark is printed with exactly N strings too (c39_more_refuted).
* **C40 socketcall demultiplexing** - ArgModel; expected refutation for call numbers without entry.
  Partial: Numbers 1-17 of linux/net.h and their arguments, also at the enter of a call; 18-20 (accept4, recvmmsg, sendmmsg) are missing in the table: enter() raises KeyError (refuted).
* **C41 Socket address display** - ArgModel on IntModel.
  Partial: Proved on little-endian processors for Linux and BSD; on big-endian ones bytes are swapped (c41_big_endian_refuted). c41_ipv4_big_endian: exactly what is shown there (IPv4).
* **C42 Backtraces are bounded** - TraceModel; structural recursion on depth proves termination.
  Partial: Proved; finding: an unreadable return address raises PtraceError out of getBacktrace (c42_return_address_refuted) although an unreadable frame pointer ends the trace.
* **C43 Expressions are evaluated safely** - Regex engine + ExprModel.
  Partial: Safety holds for every text and register file: eval() only ever sees digits, parentheses and operators. The claim that every other failure is ValueError is false in the code: ZeroDivisionError and TypeError escape (1/0, ()+1) and the result can be a bool; stated as _refuted. Python's eval on this alphabet is modelled in PyEval.v; non-integer results (true division cannot occur, negative powers) are EUndefined.
* **C44 Debugger expressions denote words** - Regex engine + ExprModel with an arithmetic evaluator as eval().
  Partial: Word range, literals, registers, * and lists of words proved for every expression tree. Failures other than ValueError (ZeroDivisionError, TypeError) exist as for C43.
* **C45 hexdump covers the range exactly once** - GdbModel; induction over lines.
  Proved.
* **C46 switch visits every process** - GdbModel; index arithmetic.
  Partial: Proved when the current process is traced; if it is not, switch raises ValueError and ends the debugger (c46_lost_refuted).
* **C47 A received signal is redelivered exactly once** - GdbModel.
  Partial: Invariant over whole lines without 'signal', and delivery exactly once by cont. 'signal N' forgets a signal arriving while it waits, 'signal 0' still sends the pending one, interrupt() loses signals, SIGTRAP is looked up in the wrong process: _refuted. For sessions with 'signal' only: no wrong signal is ever remembered (c47_session_partial).
* **C48 Command lines** - GdbModel.
  Partial: Order, stop at the first failure, replay, quit and the meaning of every command word. The last successful line is not replayed once a later line has failed; exceptions other than PtraceError end the debugger (_refuted).
* **C49 strace exit status** - StraceModel; expected refutation (killed without prior stop).
  Partial: The status is proved to be the code of the last process that exited with a code, or 128 + the last signal seen when that is later, modulo 256; the cases of the property follow when the end of the program is the last event and was announced by a signal-stop. The code violates the property for SIGKILL, for a --pid that cannot be attached and for a forked child that outlives the program (three refuted theorems).
* **C50 strace filters** - StraceModel; expected refutation of validation.
  Partial: Shown only if selected: proved for every run. Rejection of unknown names holds only when another new name follows (c50_last_refuted: the last or only name is never checked); on i386 socket calls are filtered by 'socketcall', not by the displayed name (c50_socketcall_refuted). c50_unknown_exact: exactly when.
* **C51 strace never leaves a stopped process behind** - StraceModel over DbgModel.
  Partial: Proved for every round of the loop that ends normally. Two cases violate the property: a child that ends before its first stop leaves its parent stopped, and a signal arriving instead of the SIGTRAP of execve() ends strace (refuted theorems).
* **C52 Memory fault classification** - FaultModel.
  Partial: Linux: kind, name and text proved for every report; there is a report when the process can be read and the instruction text has operands (c52_total_partial). Refuted: an Intel instruction text without a space (RET as given by distorm3) raises IndexError; without siginfo (BSD) MOVS raises TypeError. A stack pointer equal to the end of the stack mapping counts as inside.
* **C53 Fault address mapping report** - FaultModel; expected refutation at the end of a mapping when size is unknown.
  Partial: Exact when no mapping is shorter than the access (mappings are whole pages, sizes are 1, 2 or 4), or for an unknown size when no mapping ends at the address. Refuted in general: the byte after the end of a mapping is reported as part of it when the size is unknown; a mapping strictly inside the range is missed.
* **C54 Child file descriptors** - ChildModel.
  Proved.
* **C55 Child start-up errors reach the parent** - ChildModel against arbitrary kernel answers.
  Partial: Proved for every creation in which everything up to the execution works (ptrace(PTRACE_TRACEME), passed descriptors open), with any number of interrupted calls. Refuted for failures before that: the exception of PTRACE_TRACEME or of set_inheritable() goes up into the caller's code in the child, nothing is written to the pipe and the parent returns the pid.
* **C56 ptrace() error detection** - CallModel; expected refutation for the C extension path.
  Partial: Proved for ctypes with glibc. The C extension loses errno (c56_cptrace_errno_refuted) and a libc that does not clear errno makes a peek of -1 fail (c56_stale_errno_refuted).
* **C57 Unaligned word access is refused before reaching the kernel** - CallModel/MemModel.
  Proved.
* **C58 Program location** - ToolsModel/ToolsModel with the file system as an oracle.
  Proved.
* **C59 Syscall tables** - Tables generated from the repository text; decided by computation over the complete (finite) tables.
  Proved.
* **C60 Disassembly windows** - TraceModel with the decoder as an oracle.
  Proved.
* **C61 Bit sets in memory** - ArgModel; bit lemmas.
  Partial: Proved on little-endian processors; on big-endian ones the bytes of each word are read in the wrong order (c61_big_endian_refuted). c61_fd_set_big_endian, c61_sigset_big_endian: exactly what is shown there.
* **C62 inverseDict** - ToolsModel; association lists.
  Proved.
* **C63 terminate** - DbgModel.
  Partial: Proved for processes started by the debugger; for a process it attached to, terminate() returns True although it is alive (refuted).
* **C64 waitExit forwards signals** - DbgModel.
  Proved.
* **C65 Event message is the new process id** - CallModel/ReqModel: the word the kernel writes, read back through the ctypes type the code uses. Expected refutation on big-endian 64-bit.
  Partial: Proved on little-endian and 32-bit platforms; on 64-bit big-endian the upper half of the word is returned (refuted). c65_event_pid_exact: exactly when.
* **C66 Pointer registers** - RegModel with the literal tables of binding/cpu.py and the register structures; one case per architecture, register contents quantified.
  Partial: Proved except the ARM32 stack pointer, which the code takes from r14 instead of r13 (refuted), the PowerPC frame pointer (not defined by the code) and 32-bit Python on x86_64 (ProcessError). c66_arm_exact, c66_powerpc_frame: what is returned there.
* **C67 Register dump** - RegModel; list lemma over the field names of the structure.
  Proved.
* **C68 Breakpoints are traps** - BreakModel on MemModel; bytes of the trap word per architecture.
  Partial: Proved on Intel and on PowerPC except 64-bit big-endian (trap word lands at address+4, refuted); on ARM/AArch64/RISC-V the Intel opcode is written; a creation failing half-way leaves trap bytes behind (refuted).
* **C69 String and pointer arguments** - ArgModel on MemModel's readers, the memory being an arbitrary view; case analysis on the type name.
  Proved.
* **C70 Structure arguments** - ArgModel/CtModel: structure fields by offset; little- and big-endian decoding lemmas of IntProofs.
  Partial: Proved with signed fields; the limits of struct rlimit are unsigned for the kernel and shown signed (c70_rlimit_refuted). c70_rlimit_exact: exactly when.
* **C71 Process information** - ProcModel, every file an arbitrary answer (content or error); exact list of logged lines.
  Proved.
* **C72 ptrace requests** - ReqModel; requests as data, compared with the numbers of the system headers (ReqSpec).
  Proved.
* **C73 Register structures** - StructModel/CtModel: layout rules of ctypes; offsets compared with the headers of the systems (KernSpec), by computation.
  Partial: Proved for every system and CPU with a structure except OpenBSD on amd64, where the code uses the 32-bit structure (refuted). Floating point, iovec and ptrace_io_desc structures proved. siginfo: all fields used by the debugger proved; uid and the 64-bit times are wrong and the structure is too large on 64 bits (refuted).
* **C74 Flag tables** - TabModel tables against the numbers of the headers (KernSpec), by computation, exceptions listed and refuted.
  Partial: Proved against the kernel headers up to the listed exceptions, each of which is a wrong entry shown by a refuted theorem: O_SYNC, CLONE_STOPPED, fcntl lock commands, RLIMIT_NLIMITS, socket options without level, FreeBSD SIG_BLOCK and AF_INET6, user_desc, BSD sockaddr_un.
* **C75 Stack dump** - TraceModel; induction over the eleven words.
  Proved.
* **C76 Steps remove their breakpoint** - GdbModel with an environment answering every request arbitrarily; the removal is the last thing on every path.
  Partial: Proved for every environment once the process has been continued; if cont() itself fails the breakpoint stays installed (c76_left_refuted).
* **C77 The debugger is always shut down** - GdbModel main(); case analysis on what ends the session.
  Proved.
* **C78 Interruption** - GdbModel interrupt(); induction over the list of processes.
  Proved.
* **C79 System call numbers** - TabModel tables against the kernel's tables (KernSpec), by computation.
  Partial: Proved for x86_64, i386, PowerPC 32/64 and FreeBSD up to the entries the code gets wrong: x86_64 names timerfd_create 'timerfd', and seven entries of the powerpc32 table have an empty name (refuted theorems).
* **C80 Prototypes** - TabModel prototypes against the signatures of the manual pages (KernSpec), by computation.
  Partial: Argument counts proved for all prototypes; file names proved in both directions except calls on file systems (mount, umount, ...), whose path arguments are not recognised (refuted theorem).
* **C81 strace always shuts the debugger down** - StraceModel strace_main; case analysis on what leaves runDebugger, the lemmas of C29 for quit().
  Proved.
* **C82 strace lines** - StraceModel syscall_line; text lemmas.
  Proved.
* **C83 Kind of an invalid access** - FaultModel; the regular expressions characterised by RegexProofs; instruction semantics as a small table in FaultSpec.
  Partial: The class is characterised by the form of the text of the instruction. Refuted as a statement about what instructions do: TEST is reported as a write, ADD as a read, INC as neither, SCAS is compared with rsi instead of rdi.
* **C84 Size of an invalid access** - FaultModel; groups of the regular expression. Expected refutation: the group contains the space.
  Partial: Refuted: the group deref_size includes the space after the name, which is never a key of NAMED_WORD_SIZE, so that the size is never reported except for MOVS/SCAS, where it is right (c84_string, c84_size_partial).
* **C85 Registers of a fault report** - FaultModel; findall() lemma of the regex engine.
  Partial: Every value is right; every register the expression knows is shown. Refuted for r8-r15, that the expression cannot match.
* **C86 Division by zero** - FaultModel; the class depends on the mnemonic only. Expected refutation: overflow of the quotient.
  Partial: Reported exactly for DIV/IDIV instructions; the divisor is not examined: the overflow of a division is reported as a division by zero (c86_overflow_refuted).
* **C87 End of a child** - FaultModel against the meaning of si_status (sigaction(2)). Expected refutation for exit codes.
  Partial: si_status is the exit code or the signal, but is decoded as a wait status: right for signals and exit code 0, wrong for every exit code from 1 to 126 (c87_exit_code). c87_exit_exact: what is said for every exit code.
* **C88 Signal report lines** - FaultModel; exact list of lines.
  Proved.
* **C89 No output** - ChildModel: descriptor table as a function; dup2 and close exactly as written.
  Partial: Proved when open(devnull) gives a descriptor other than 1 and 2. Refuted when the standard output was closed beforehand: the null device is opened as descriptor 1 and closed again.
* **C90 No descriptor leak in the parent** - ChildModel; frame lemma over the requests of the parent, with failure of each.
  Partial: Proved when the system calls of the parent work (with any number of interruptions). Refuted when fork() fails: both ends of the pipe stay open. c90_fork_exact, c90_pipe: exactly what is left then.
* **C91 Error reports** - LogModel; split/rstrip lemmas over the lines of the traceback text.
  Proved.
* **C92 Verbosity** - LogModel; displayed() filters by level.
  Proved.
* **C93 Profiler** - LogModel runProfiler with the file as a flag; case analysis on try/finally. Expected refutation.
  Partial: Refuted by the code: an exception of the profiled function is replaced by FileNotFoundError, because the file does not exist yet when the finally clause removes it; an unrelated file of that name is removed. Proved when the function returns. c93_error_exact: exactly when.
* **C94 Decoding a code** - DecodeModel; the decoder is any function that agrees with a one-instruction decoder; induction over batches.
  Partial: Decode itself is proved for every sound decoder. Refuted for callers that keep the instructions: they are views of one array that the next batch overwrites (witness of 101 instructions); proved up to 100 instructions. c94_list_exact: exactly when.
* **C95 Disassembler without distorm3** - DecodeModel; str() of an object whose __str__ returns bytes. Expected refutation.
  Partial: Refuted by the code: __str__ returns bytes, so that str() raises TypeError for every instruction on Python 3.
* **C96 Detection of the host** - HostModel: the flags one by one, compared with the inductive types of Platform.
  Partial: Flags and derived constants are proved for every machine and platform name. Refuted: a 32-bit Python on an x86_64 kernel gets CPU_X86_64 with 4-byte words; arm64 is taken for ARM32 and i586 is unknown.
* **C97 Terminal** - HostModel; bit lemmas.
  Partial: Echo mode proved completely. The width is proved below 32768 columns and refuted above: the unsigned fields are read as signed. c97_width_exact: exactly when.
* **C98 Dates** - HostModel: dates as seconds, the zone an arbitrary function. Expected refutations.
  Partial: UTC proved. The local date uses the offset of 1 January 1970: proved for zones with that offset, refuted for others (summer time). The documented ValueError is never raised (refuted). Values are integers here; C133 has fractions of seconds. c98_local_exact: exactly when.
* **C99 Instruction tracer** - ItraceModel on the debugger of DbgModel; the ticks of DbgProofs show that waiting resumes nothing.
  Partial: On Linux, with a limit: proved (fewer stops when an event or error is raised). Refuted without -n: comparing an integer with None raises TypeError before anything is traced.
* **C100 Tracing options** - DbgModel already has the four functions. State each as: same state but the options, the options have exactly the given bits added (Z.testbit, all bits), the flag set. Proof by Z.lor_spec and pow2_bits_eqb.
  Proved.
* **C101 Regular expressions** - RegexSpec gives the language of an expression as a relation (den), independent of the backtracking matcher. Soundness and completeness of match and search by induction on the expression (RegexProofs); leftmost by comparing prefixes; classes by checking all 256 characters.
  Proved.
* **C102 Command lines** - CmdModel has optparse (short, long, abbreviated options, values) and the option tables of both tools. CmdSpec describes a command line as a list of items and each setting as a fold over the items. Proof: one item changes only its own setting (CmdProofs), then induction over the items (CmdProofs2).
  Proved.
* **C103 Equivalent spellings of an option** - Equations between two command lines for any remaining words; abbreviations by computing over the finite option tables; numbers from the facts on int().
  Proved.
* **C104 Followed terms** - XrayModel: literals, generators as a list with an end, search as in MapModel. Soundness and completeness from the search theorem of C18 lifted over mappings, processes and terms.
  Partial: Proved for non-empty terms when every mapping can be read; an occurrence overlapping one already found is covered by it. Refuted: one unreadable mapping ([vvar], ---p) ends the whole search with an error; an empty term never ends; a literal with a semicolon is cut by the command separator. Literals other than one bytes literal are left to an eval argument.
* **C105 Memory dump** - The lines are those of C19 (maps_line); walk of the regular expression over them, and a part starting with a slash can only be in the name. The dump is described by an inductive relation (dump_of).
  Partial: Proved for Python 2 with the file as Linux prints it: the dump is the concatenation of the readable mappings whose line has neither /lib nor /usr. Refuted: on Python 3 (the only supported version) open(name, 'r', 0) raises ValueError and nothing is dumped; mappings such as /home/u/library/data are left out.
* **C106 Help** - Computation over the command table, against the words of GdbSpec and the dispatcher of GdbModel.
  Proved.
* **C107 Single commands** - GdbCmdSpec says for each command which calls are made and what is shown (does, answers); each theorem is the run of the command through the calls of GdbModel.
  Proved.
* **C108 Start and end of strace** - Equations for setupDebugger, createChild and createProcess, whose results are described by an inductive relation (adds).
  Proved.
* **C109 Fault address without siginfo** - The decomposition of the instruction is unique (first bracket), so that the group of the regular expression is the expression; then case analysis on its value.
  Proved.
* **C110 Command lines without --** - Induction over the words for programs without options; runs that show that options of the program are taken by the tracer.
  Partial: Refuted: the options of the program are taken by the tracer or rejected, although the usage reads '[options] -- program [arg1 arg2 ...]' (optparse accepts options after arguments); --pid 0 is accepted but then treated as no process, and the start fails with IndexError. Proved for programs without options (c110_plain_partial).
* **C111 Generated prototypes** - The grammar of a header is an inductive relation; the removal of __user commutes with separators, white space is normalised by a state machine, a name is the longest end without space and star; dictionary, order and lines by induction.
  Proved.
* **C112 Prototypes of any C declaration** - Runs of the generator on three declarations.
  Partial: Refuted: a name ending in long, int or size_t is taken for a part of the type, an unnamed type other than the known ones is taken for a name, and white space before a comma raises AttributeError. The declarations for which it holds are those of C111.
* **C113 What is left of a process that is let go** - State of C16 with the attachment; memory of a detached process is constant by induction over the uses, the rest by cases; destruction folds over the dictionary.
  Partial: Proved for every history: requests, registration, memory, destructors. c113_clean_partial inherits the hypotheses of C16 (accessible, non-overlapping ranges). c113_traps_refuted: an installed breakpoint stays in memory when the process is detached or its object destroyed; the weak reference of the breakpoint is dead by then, so its destructor marks it as removed without writing.
* **C114 The example debugger** - The machine of C01-C30 with the scripted kernel oracle; the outer program is unfolded branch by branch, calls made are those of the debugger operations (ticks/within).
  Partial: c114_left_refuted: playWithProcess is not protected by try/finally, so quit() is skipped when it raises (e.g. Ctrl-C while waiting) and the started process is neither killed nor detached. The rest is proved for all command lines and kernels.
* **C115 The test runner** - Directory trees as a nested inductive type with its own induction principle; membership characterisations of list_dir, load_modules, load_tests.
  Partial: c115_names_refuted: list_dir adds the name of a package below the tests directory twice to the module names (sub.sub.test_a). c115_success_refuted: modules that can not be imported are only named on stderr, the exit status is 0. --forever, --coverage and --findleaks: see C130.
* **C116 Prototypes of the kernel header** - Run the proved generator on the list of C declarations and compare with the shipped table by computation.
  Proved.
* **C117 What pointers point to** - Read the bytes of the structure from an arbitrary memory view and compare with the C layout; escape sequences by a literal reader.
  Partial: The property fails for arrays of ten or more elements (c117_array_refuted): the regular expression of createText keeps the last digit of the size only; c117_array_partial says exactly which elements are shown for every size. No shipped prototype has such an array. c117_signs_partial leaves out rlimit, whose members are declared with the wrong type (c70_rlimit_refuted).
* **C118 Arguments after the call** - Position by position induction over the argument list; the lost arguments are a list in the specification.
  Partial: c118_stale_refuted: the type int[2] of pipe does not end with an asterisk, so a text made at the entry (strace --enter) stays although the call has written the descriptors.
* **C119 Errors of a debugger command** - Equations for a line whose n-th command raises; gcore is a sequence of calls of which the second open() always fails (predicates closed under bind).
  Partial: Ptrace errors are reported and the session goes on (c119_goes_on). c119_error_refuted: any other exception, such as a division by zero in an expression, ends the session (exactly c119_ends). c119_gcore, c119_gcore_never: gcore always fails, because open(path, 'r', 0) is refused by Python 3, and this ends the session.
* **C120 Help of the debugger** - Boolean checks over the list, lifted by forallb_forall; the converse by the characterisation of unknown commands (c48_unknown).
  Proved.
* **C121 The log of strace is the history of the program** - The program is a list of acts; a predicate relates it to the answers of the kernel and another to the lines. One lemma per kind of round of the loop keeps an invariant (one registered process, its calls so far, the log so far); induction over the acts; composition with the start.
  Proved.
* **C122 Events and errors that stop a debugger command** - Call-by-call statements with the does/answers vocabulary of C107; a lemma for the change of the current process, composition by then_switches, does_rescued and does_fails.
  Proved.
* **C123 The log of strace --fork follows every process** - FamilySpec has the members, the steps and when a kernel brings a history about (happens: waiting for one process, turns of polling with pauses for several), and the lines of one process (tale). Invariant of the loop: the registry of the debugger holds exactly the living, each with the syscall state of its own phase (FamilyProofs, FamilyProofs2); one round per step (FamilyProofs3, induction on the history). Uniqueness by induction on the tales; existence by a kernel that answers from a list made from the history (FamilyProofs4).
  Proved.
* **C124 The instructions shown are those of the program** - CodeSpec has the instruction set (one: the instruction at the head of some bytes, depending on its own bytes only), the instructions that are in a memory (is_at, are_at, listing) and memories with breakpoints; the disassembler is any decoder that agrees with it. CodeProofs has the single instruction and the listings, CodeProofs2 the dump that hides breakpoints (induction on the listing), with the exact conditions and the counterexamples on a small instruction set.
  Partial: The property fails (c124_one_refuted, c124_one_i386_refuted, c124_range_refuted, c124_where_refuted): MAX_INSTR_SIZE is 11 (8 on i386) although instructions have up to 15 bytes; a range cuts the instruction that crosses its end; an instruction under a breakpoint is decoded from the bytes the breakpoint replaced. c124_one_partial and c124_breakpoint_partial are if and only if; the others give sufficient conditions.
* **C125 A program debugged with breakpoints runs as without the debugger** - SessionSpec has programs as relations between states, runs until a trap, an ideal debugger that changes nothing, and the sessions of the debugger of the repository (createBreakpoint, findBreakpoint, desinstall, and the parts of cont, step and delete of gdb.py in SessionModel). A simulation relation built on the invariant of C16 (SessionProofs2) is kept by every command: the run with traps and the run without them are matched instruction by instruction (SessionProofs3: run_sound, run_complete), and setInstrPointer undoes exactly what the trap did to the registers (SessionProofs: reset_pc). SessionExamples has a CPU that knows NOP, for the example and the counterexamples.
  Partial: Soundness, completeness and the comparison with undebugged runs hold for sessions in which the program never jumps inside a breakpoint, a step reaches only its own breakpoint and a single step does not start on a breakpoint (tame); without these conditions the property fails (c125_inside_refuted, c125_step_refuted, c125_stepi_refuted).
* **C126 The log of itrace is the path of the program** - PathSpec says how the kernel runs a program (stops of system calls, then single steps along a path of addresses, then the end or a signal) and which lines and requests belong to it; itrace_main is main() of strace.py with the syscallTrace of itrace.py. c126_path_partial, c126_short and c126_signal give log and requests for every path; c126_paths shows that every path occurs; c126_signal_refuted: the program is killed by a harmless signal.
  Partial: Proved for programs without signals (c126_path_partial, c126_short). A signal violates the property, exactly as c126_signal says: it is taken for the death of the program, which is then killed if it was started, or let go without the signal if it was attached (c126_signal_refuted: SIGCHLD).
* **C127 Which decoder shows an argument** - ShownSpec lists the arguments with decoders independently of the nested tests of createText() and says when an argument has none (plain); ShownProofs shows that the lookups of the model agree with membership in the tables and follows every branch of createText() once. c127_reached_partial compares the keys of all tables with the prototypes.
  Partial: Proved: constants by name (c127_named), decoders (c127_decoded), signals (c127_signal), socket types (c127_socket_type), and arguments shown by type (c127_integer, c127_word, c127_opaque, c127_unreadable). Partial because the table for lseek calls its argument 'origin' while the prototype says 'whence', so SEEK_SET/CUR/END are never shown (c127_lseek_refuted); signals of kill/tkill/tgkill are called 'sig' and shown as numbers (c127_kill_refuted); SOCK_NONBLOCK makes a socket type a number (c127_nonblock_refuted).
* **C128 What a debugger command may do** - EffectSpec gives the permissions of each command as an inductive relation over the call, the calls made before by the same command and the current process; a history is lawful if every call was permitted when it was made. EffectProofs shows with a small program logic (stay, fine, idle) that every command, run in any environment, adds a lawful history; c128_once, c128_looking and c128_line follow from the relation alone.
  Proved.
* **C129 Programs debugged by typing commands run as without the debugger** - LinkSpec describes a process with its memory, registers and breakpoints that answers the calls of gdb.py (answered): waiting runs the program until a trap, breakpoints are set and removed by the functions of BreakModel, looking changes nothing but the state of the file /proc/pid/mem; the meaning of a typed command (means) is a list of actions of SessionSpec. LinkProofs takes the run of each command of GdbModel apart into its calls, LinkProofs2/3 show that they are the action, for any environment whose answers are those of such a process, and combine this with the simulation of C125. LinkExamples types three lines at the CPU of SessionExamples.
  Partial: c129_command holds for every plain command; the statements about whole sessions have the conditions of C125 (tame). One process; stops other than traps (signals, the end of the process) and commands ended by an exception are not part of a session.
* **C130 Options of the test runner** - RunMainModel models runtests() with all its options as the list of what it does and how it ends (Endless after a number of rounds stands for a run that has not ended), and find_leaks as the fold over the tests made by TestResult.addSuccess. Runs by induction on the rounds; leaks by induction on the tests, generalised over what is in gc.garbage.
  Partial: Refuted: test modules are loaded after the measure is started but before the try, so that a syntax error leaves it unsaved (c130_measured_refuted, proved otherwise: c130_measured_partial); objects made by a failed test are reported with the next successful test or not at all (c130_owner_refuted; c130_leaks says exactly which, c130_owner_partial when all tests succeed).
* **C131 Signals of a debugged program** - The world of C129 with signals: the kernel may report one wherever it arises, and a continuation with a signal makes the effect of its delivery. Inversion of the runs of each command, ended normally or by the event of a signal, gives the operations on the process; a simulation by an ideal debugger which keeps the pending signal, then by the program alone, by induction on the commands.
  Partial: The statements about sessions have the conditions of C125 (the program does not look at the bytes of breakpoints, nor does the delivery of signals) and ask that the user does not step while a signal is pending: c131_lost_refuted and c131_late_refuted show that step, stepi and until do not deliver a pending signal, which is then delivered late or lost. One process; a signal of a single step arises before its instruction.
* **C132 The end of a debugged program** - The world of C131 in which the process may end wherever the program may, or die of a signal being delivered; whoever waits then gets the event of its exit. Inversion of the runs of each command that are ended by this event, then the simulation of C131.
  Partial: Same conditions as C131, and the end of the program does not depend on the bytes of breakpoints: c132_end_refuted shows a program that ends only because the user stepped before a signal was delivered. One process.
* **C133 Examples of the documentation** - doctest is modelled as a reader of lines; a docstring is a list of pieces (prose, example), and reading what is written from pieces gives the pieces back. The package is a tree of modules with the docstrings as they are written; the examples are run by the model and compared. Calendar: decomposition of a year in cycles of 400, 100 and 4 years, months by cases.
  Partial: c133_untested_refuted: the script does not run the example of ip_int2str, which is defined in socketcall_struct.py, not in the tested socketcall.py; so the script can succeed although an example is wrong. The sources of the examples are matched as texts and evaluated by the functions of the model; directives, tracebacks and <BLANKLINE> of doctest are left out (not used in /repo).
* **C134 Where the output of strace goes** - strace.py from argv: parsing (C102), opening the file, the level, the run (an argument, StraceModel.strace_main in the example), the profiler; files are an association list. The text is related to the lines of the trace by a small function of the specification.
  Proved.
* **C135 Every module can be imported, in every order** - The statements at module level of every file are extracted into a small language (imports, conditions, try, names defined and read); ImpModel.v executes them with sys.modules. A check of each module alone against a table of names (ImpCheck.v) is proved sound for all sequences of imports (ImpProofs2.v) and evaluated for all supported hosts (ImpProofs3.v).
  Partial: c135_arm_refuted: on Linux with a 32-bit ARM CPU ptrace.binding.cpu knows the registers, but ptrace.syscall, ptrace.debugger, strace.py and gdb.py raise NotImplementedError when they are imported (ptrace/syscall/names.py has no table for it). The modules of the standard library are assumed to be there with the names asked for; values other than flags are not kept; stdout is a terminal; the machine has os.uname().
* **C136 No function reads a global name that is not there** - The global names read by each function are extracted with the conditions on flags around them (UseCode.v); they are looked up in the namespaces that ImpModel.v computes. The check over all supported hosts is part of that of C135 (ImpProofs3.v).
  Partial: c136_openbsd_refuted: on OpenBSD ptrace.binding.func has ptrace_syscall(), but the constant PTRACE_SYSCALL is not defined there (func.py 56-71), so every call raises NameError. c136_exact: the only other name is THREAD_TRACE_FLAGS in PtraceDebugger._waitpid() outside of Linux (debugger.py 9-13, 134; read for threads only). Conditions on flags are followed; of other statements all parts are taken as read.
* **C137 The tests of strace hold** - The regular expressions of tests/test_strace.py and what the tests do with the output (SuiteModel.v); a run of strace.py is that of C134 with the tracer of C121, so the text of the file is derived from the calls of the program (C36, C37, C127) and the expressions are matched with the semantics of RegexSpec.v; for test_getcwd the greedy star is followed to the last comma.
  Proved.
* **C138 The tests of gdb.py hold, and its helper returns what a command writes** - run_command() and the expressions of tests/test_gdb.py (GSuiteModel.v); the output is read off the history of a session of GdbModel, whose environment is restricted only to one command followed by the end of the input; what the dumps write is linked to ProcModel, MapModel, TraceModel and XrayModel in the hypotheses; the proof follows gdb_main through two rounds of its loop and then reasons about occurrences of the prompt.
  Proved.
* **C139 Methods find the attributes of their object** - AttrModel: a small language of what a method does with self (read, assign, call, branch, loop, try, finally) with a relation [run] that takes every branch and raises anywhere; AttrCode: all classes, transcribed by a script; AttrCheck: contracts (attributes needed, attributes assigned) per method and a checker, proved sound by induction on runs, then evaluated for the two flags on which members depend; sets_first for the destructor; an upper bound on assigned attributes for the docstring of Instruction.
  Partial: c139_instruction_refuted: the docstring of Instruction (ptrace/disasm.py 32-42) lists the attributes mnemonic and operands, which no instance has. Everything else of the property is proved. Attributes of other objects than self: C141.
* **C140 Calls give functions the arguments they take** - BindModel: signatures and bind, as in CPython (fill positions, then put keywords, then check the rest and the missing ones); BindSpec: accepted arguments and the value of each parameter, without bind. bind_iff and bind_values by induction over the keywords with a lookup function [get]. BindCode: signatures, classes and calls, transcribed by a script; the calls are checked by evaluating bind on units, which is enough because acceptance depends only on the number of values.
  Partial: All calls are proved. c140_override_refuted: SyscallTracer.createChild(program) replaces Application.createChild(arguments, env=None) without the parameter env (strace.py 277); all other replaced methods except constructors accept what the method of the parent accepts (c140_override_partial). Calls of Python's own functions, of other libraries and of functions passed as parameters (log) are not followed; the class of the object of a method call is read from the code by hand.
* **C141 Code finds the attributes of the other objects it reads** - PeerCode: the reads of attributes of other objects with the class of the object, transcribed by a script. Uses the contracts of C139: the attributes that the constructor always assigns are in every state of the object (alive_incl), so it is enough to evaluate [there] on them for the four values of the two flags on which members depend.
  Proved.
* **C142 The uptime is exact** - UptimeModel: floating point numbers as fractions (double: 53 bits, nearest, ties to even), float() of decimal digits, timedelta(seconds=) as in _datetimemodule.c. double_close: the chosen exponent leaves at least 52 bits (small_first, small_next by log2), so half a unit is a relative error of 2^-53. microseconds: both errors together are less than half a microsecond below 2^32 s, so that nearest_unique gives the exact value.
  Proved.
* **C143 Format strings take the arguments they are given** - FmtModel: the parser of the conversions as an automaton (text, behind '%', flags, width, precision, length modifier, letter) with what each letter accepts. FmtSpec: the grammar of the documentation. percent_right by going through the parts of a conversion (need: the values that are still to come). FmtCode: the 230 formats, read from the files as text; format_mono carries the check with the least values to all values.
  Partial: All formats are proved except one: c143_env_refuted (dumpProcessInfo with an environment string without '=', see C22). The values of int conversions are read from the code by hand; the operand of a format with a single conversion that is not written as a tuple is assumed not to be a tuple. Only whether % raises an exception is modelled here, not the text; formats with keys do not occur. Checked against Python 3.11 on 1500 random formats.
* **C144 Opened files are closed** - OpenModel: a state monad over the list of open files, with try/finally and with; the functions once more, with the contents of the files and all errors as arguments; the results agree with those of C19 and C105. boot_fails and status_good characterise the failing files; the file of the memory by four states (undecided, holding, refused, over) of the object, cases.
  Partial: c144_closed_refuted: getSystemBoot(), dumpProcessInfo() and gcore() have no finally clause; c144_detach_refuted: detach() leaves /proc/pid/mem open (only _notRunning() closes it). Exact conditions: c144_boot_left, c144_status, c144_gcore_left, c144_mem. CPython closes such a file when its object is destroyed, which is not modelled; close() itself works.
* **C145 The source distribution is complete** - SdistModel: the patterns of distutils as a function on characters, the lines of MANIFEST.in, the files of packages. SdistSpec: an inductive relation between patterns and names. glob_matches by induction on the pattern, line_words by split_words, package_files_iff by matches_literal and star_py. SdistCode: MANIFEST.in and the names of all files; the checks over them are computed once (check_all).
  Partial: c145_all_refuted: setup.py (8-9) asks for all tracked files, .gitignore and .github/workflows/* are not in it (c145_sdist: everything else is). distutils is modelled from its documentation; setuptools may add further files.
