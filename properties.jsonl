{"id": "C01", "title": "Two's-complement conversions", "statement": "int2uint32/64, uint2int32/64, truncateWord32/64 map every Python integer to the unique integer congruent to it modulo 2^32 / 2^64 in the unsigned resp. signed range; signed->unsigned->signed and unsigned->signed->unsigned round-trip on the representable range.", "quantifier": "every Python integer (unbounded, negative included)", "why_tests_cant": "The domain is all integers; doctests sample five of them.", "anchors": ["ptrace/ctypes_tools.py:int2uint64,uint2int64,int2uint32,uint2int32,truncateWord32,truncateWord64"]}
{"id": "C02", "title": "Hexadecimal formatting of words and addresses", "statement": "formatUintHex16/32/64 (and formatWordHex) of a non-negative integer is '0x' followed by lower-case hex digits, padded to exactly 4/8/16 digits when the value fits in 16/32/64 bits, and reads back as the same integer; formatAddress is 'NULL' exactly for zero, and distinct addresses have distinct texts; formatAddressRange joins the two texts with '-'.", "quantifier": "every non-negative integer", "why_tests_cant": "Infinite domain; injectivity and read-back cannot be sampled.", "anchors": ["ptrace/ctypes_tools.py:formatUintHex16,formatUintHex32,formatUintHex64,formatWordHex,formatAddress,formatAddressRange"]}
{"id": "C03", "title": "Network byte order conversions", "statement": "ntoh_ushort / ntoh_uint of a field read from memory in host order give the integer whose big-endian bytes are the bytes in memory; they are involutive; out-of-range arguments raise instead of giving a wrong number.", "quantifier": "every 16/32-bit value, both host byte orders", "why_tests_cant": "Doctests sample a handful of ports and addresses on the machine they run on; the values of the other byte order never occur there.", "anchors": ["ptrace/ctypes_tools.py:ntoh_ushort,ntoh_uint"]}
{"id": "C04", "title": "CPU word <-> bytes codec", "statement": "word2bytes gives exactly CPU_WORD_SIZE bytes, bytes2word reverses it, and bytes2word followed by word2bytes gives the bytes back; out-of-range words and wrong-length byte strings raise.", "quantifier": "every word, every byte string of word length, both word sizes, both byte orders", "why_tests_cant": "There are 2^64 words and four combinations of word size and byte order; a test runs on one combination and on a few words.", "anchors": ["ptrace/ctypes_tools.py:word2bytes,bytes2word"]}
{"id": "C05", "title": "Bit-mask decomposition loses nothing", "statement": "readBits(value, masks) names a mask only if the value has one of its bits, and the named masks together with the final numeric item account for exactly the bits of value; with pairwise disjoint single-purpose masks a name appears if and only if its bits are set; order follows the mask list; formatBits shows the original value.", "quantifier": "every non-negative value and every mask table", "why_tests_cant": "Any subset of flags of an arbitrary table.", "anchors": ["ptrace/tools.py:readBits,formatBits"]}
{"id": "C06", "title": "Flag arguments of open/access/mmap/clone", "statement": "formatOpenFlags, formatAccessMode, formatMmapProt, formatOpenMode and formatCloneFlags list exactly the flags set in the argument (for the tables shipped), show O_RDONLY exactly when neither access mode bit is set, keep the raw value, and never drop unknown bits.", "quantifier": "every unsigned argument value", "why_tests_cant": "Each formatter takes any of 2^64 values; tests see the few combinations of flags that the traced sample programs use.", "anchors": ["ptrace/syscall/posix_arg.py:formatOpenFlags,formatAccessMode,formatMmapProt,formatOpenMode,formatCloneFlags,formatDirFd"]}
{"id": "C07", "title": "Range restriction and log levels", "statement": "minmax(lo,v,hi) is the nearest value of [lo,hi] whenever lo<=hi; changeLogLevel always yields a level in DEBUG..ERROR, moves by delta*10 when that stays in range, and getLogFunc never returns anything but a method of the logger.", "quantifier": "every integer triple / level / delta", "why_tests_cant": "The arguments are unbounded integers, and an off-by-one shows only at the limits.", "anchors": ["ptrace/tools.py:minmax", "ptrace/logging_tools.py:changeLogLevel,getLogFunc"]}
{"id": "C08", "title": "Sub-register reads", "statement": "getreg(name) for a sub-register (al, ah, ax, eax, flag names, ...) returns exactly the bit field of the full register that the CPU architecture defines; for a full register it returns the register; unknown names raise ProcessError and never touch the process.", "quantifier": "every register file content, every register name, every supported CPU", "why_tests_cant": "Every register has 2^64 contents and every CPU its own table, of which the tests see the one of the test machine.", "anchors": ["ptrace/debugger/process.py:PtraceProcess.getreg", "ptrace/binding/cpu.py:CPU_SUB_REGISTERS"]}
{"id": "C09", "title": "Register write then read", "statement": "After setreg(name, v), getreg(name) returns v restricted to the register's width and every bit outside that register, and every other register, keeps its value.", "quantifier": "every register file, name and value", "why_tests_cant": "Unbounded contents; frame condition over all other bits.", "anchors": ["ptrace/debugger/process.py:PtraceProcess.setreg,setregs,getreg"]}
{"id": "C10", "title": "Word-wise memory read is exact", "statement": "The ptrace implementation of readBytes(address,size) returns exactly the size bytes stored at address..address+size-1 when the words covering the range are readable, for any alignment, and raises PtraceError otherwise; it never modifies the process.", "quantifier": "every memory content, address, size >= 0, word size, byte order", "why_tests_cant": "All alignments x lengths x contents.", "anchors": ["ptrace/debugger/process.py:PtraceProcess._readBytes,readWord", "ptrace/binding/func.py:_peek"]}
{"id": "C11", "title": "readBytes does not depend on the access path", "statement": "When the whole range is mapped, readBytes via /proc/pid/mem and via PTRACE_PEEKTEXT return the same bytes, the switch to the fallback happens only when /proc/pid/mem cannot be opened or returns nothing, and once switched it is permanent; readBytes returns exactly size bytes or raises.", "quantifier": "every memory, range, and history of open/read outcomes of /proc/pid/mem", "why_tests_cant": "Whether /proc/pid/mem can be opened or reads nothing depends on kernel, rights and moment; a test machine shows one such history.", "anchors": ["ptrace/debugger/process.py:PtraceProcess.readBytes,_readBytes"]}
{"id": "C12", "title": "writeBytes changes exactly the requested bytes", "statement": "After a successful writeBytes(address, data) memory at address..address+len-1 is data and every other byte of the process is unchanged; a subsequent readBytes returns data.", "quantifier": "every memory, address, data, word size, byte order", "why_tests_cant": "Frame condition over the entire address space.", "anchors": ["ptrace/debugger/process.py:PtraceProcess.writeBytes,writeWord", "ptrace/binding/func.py:_poke"]}
{"id": "C13", "title": "Failed writeBytes never touches foreign bytes", "statement": "If writeBytes raises part-way (some word not writable), the bytes outside the requested range are unchanged and inside the range each byte is either old or the requested one, with the new bytes forming a prefix.", "quantifier": "every memory, protection pattern, address and data", "why_tests_cant": "The failure must be placed at every single word of the range; the kernel of a test machine fails only at page limits.", "anchors": ["ptrace/debugger/process.py:PtraceProcess.writeBytes"]}
{"id": "C14", "title": "C strings are read up to the NUL or the limit", "statement": "readCString(address,max_size) returns the bytes before the first NUL, cut to max_size; the truncated flag is true exactly when the string was cut.", "quantifier": "every memory, address, max_size, chunk length", "why_tests_cant": "All string lengths around chunk and limit boundaries.", "anchors": ["ptrace/debugger/process.py:PtraceProcess.readCString"]}
{"id": "C15", "title": "Structure and array reads", "statement": "readArray(address,type,count) element i is the value stored at address+i*sizeof(type), for every i<count, and readStruct reads field at its offset.", "quantifier": "every memory content, count", "why_tests_cant": "Counts and contents are arbitrary; tests read the few structures of sample programs.", "anchors": ["ptrace/debugger/process.py:PtraceProcess.readArray,readStruct", "ptrace/ctypes_tools.py:bytes2type,bytes2array"]}
{"id": "C16", "title": "Breakpoints restore the code they replaced", "statement": "Installing a breakpoint writes the trap over exactly [address,address+size) and desinstall puts back the original bytes; after any sequence of creations and removals in which no two live breakpoints overlap, every byte not under a live breakpoint has its original value.", "quantifier": "every memory and every sequence of breakpoint operations", "why_tests_cant": "All interleavings of installs and removals.", "anchors": ["ptrace/debugger/breakpoint.py:Breakpoint", "ptrace/debugger/process.py:createBreakpoint,removeBreakpoint"]}
{"id": "C17", "title": "Breakpoint lookup", "statement": "findBreakpoint(a) returns a live breakpoint whose range contains a if and only if one exists; createBreakpoint raises ProcessError without touching memory exactly when the address is inside a live breakpoint, and desinstall twice is the same as once.", "quantifier": "every set of live breakpoints and address", "why_tests_cant": "Ranges of breakpoints can touch, overlap or nest in any order; a test tries a few such sets.", "anchors": ["ptrace/debugger/process.py:findBreakpoint,createBreakpoint,removeBreakpoint", "ptrace/debugger/breakpoint.py:desinstall"]}
{"id": "C18", "title": "Memory search finds every occurrence", "statement": "MemoryMapping.search(s) yields only addresses where s really is, in increasing order, never overlapping, and misses no occurrence (in particular none straddling the 64 KiB buffer boundary) except those overlapping one it reported; it terminates for every non-empty s.", "quantifier": "every mapping content, size, pattern", "why_tests_cant": "Pattern position relative to chunk boundaries for any mapping size.", "anchors": ["ptrace/debugger/memory_mapping.py:MemoryMapping.search"]}
{"id": "C19", "title": "/proc/pid/maps parsing round-trips", "statement": "readProcessMappings of the text the kernel prints for a list of mappings returns those mappings (start, end, permissions, offset, device, inode, pathname).", "quantifier": "every list of mappings (addresses, device numbers, inodes, pathnames)", "why_tests_cant": "File names, device numbers and addresses are arbitrary; a test sees the mappings of its own processes, whose names are harmless.", "anchors": ["ptrace/debugger/memory_mapping.py:PROC_MAP_REGEX,readProcessMappings,MemoryMapping.__contains__,__str__"]}
{"id": "C20", "title": "/proc/pid/stat parsing is robust to the program name", "statement": "ProcessState(stat) gives the right pid, program, state and numeric fields whatever characters (spaces, parentheses, newlines) the program name contains.", "quantifier": "every program name and field values", "why_tests_cant": "A program can choose its own name, with parentheses, spaces and newlines; tests use ordinary names.", "anchors": ["ptrace/linux_proc.py:ProcessState"]}
{"id": "C21", "title": "NUL-separated process lists round-trip", "statement": "readProcessProcList of the kernel's encoding of an argument vector (each argument followed by NUL) gives the argument vector, empty arguments included; readProcessCmdline falls back to the bracketed program name exactly when the list is empty or unreadable.", "quantifier": "every argument vector", "why_tests_cant": "Arbitrary vectors with empty strings at any position.", "anchors": ["ptrace/linux_proc.py:readProcessProcList,readProcessCmdline,readProcessStatm,searchProcessesByName"]}
{"id": "C22", "title": "Environment dump truncation", "statement": "With max_length the environment shown by dumpProcessInfo keeps variables in order, their total length never exceeds max_length, a variable is skipped only if it would exceed the limit, and kept+skipped = total.", "quantifier": "every environment and limit", "why_tests_cant": "Greedy selection over arbitrary lists.", "anchors": ["ptrace/process_tools.py:dumpProcessInfo"]}
{"id": "C23", "title": "Wait status decoding", "statement": "processStatus turns every wait status into exactly one event: exit with that code, killed by that signal, ptrace event, or stop by that signal; anything else raises ProcessError; exited/killed processes are marked not running and leave the debugger.", "quantifier": "every 32-bit wait status", "why_tests_cant": "A status combines exit code, signal, core flag and event number; most combinations need a kernel event that is hard to provoke.", "anchors": ["ptrace/debugger/process.py:processStatus,processExited,processKilled,processSignal,ptraceEvent", "ptrace/binding/func.py:WPTRACEEVENT"]}
{"id": "C24", "title": "Exit messages", "statement": "ProcessExit and formatProcessStatus name the exit code or the signal of the status, 'exited normally' exactly for code 0, and core dump exactly when the core bit is set.", "quantifier": "every status", "why_tests_cant": "Exit codes, signals and core dumps combine to more statuses than sample programs can produce.", "anchors": ["ptrace/debugger/process_event.py:ProcessExit", "ptrace/process_tools.py:formatProcessStatus"]}
{"id": "C25", "title": "Signal names", "statement": "signalName is total; for every number defined by the signal module the name is one of the module's SIG* names for that number, the preferred one when listed, and a number without name is shown as signal<n>; distinct known numbers have distinct names.", "quantifier": "every signal module namespace and number", "why_tests_cant": "The namespace of the signal module differs between platforms and versions; a test sees the one it runs on.", "anchors": ["ptrace/signames.py:getSignalNames,signalName"]}
{"id": "C26", "title": "Process registry consistency", "statement": "In every reachable debugger state the pid dictionary and the process list contain the same processes, each once, under their own pid.", "quantifier": "every sequence of debugger operations and every kernel behaviour", "why_tests_cant": "All histories of forks, exits, errors.", "anchors": ["ptrace/debugger/debugger.py:addProcess,deleteProcess,_wait_event_pid", "ptrace/debugger/process.py:detach,_notRunning,ptraceEvent"]}
{"id": "C27", "title": "A failed addProcess leaves nothing behind", "statement": "If addProcess raises, the process is not registered in the debugger afterwards.", "quantifier": "every kernel behaviour during the attach", "why_tests_cant": "Every failure point of the attach handshake.", "anchors": ["ptrace/debugger/debugger.py:addProcess"]}
{"id": "C28", "title": "detach is idempotent", "statement": "Detaching a process issues at most one PTRACE_DETACH over its whole life, none if it is not running any more, and removes it from the debugger; further detach calls do nothing.", "quantifier": "every operation sequence", "why_tests_cant": "The second detach can come after any history of events; a test tries one or two of them.", "anchors": ["ptrace/debugger/process.py:detach,_notRunning", "ptrace/debugger/debugger.py:deleteProcess"]}
{"id": "C29", "title": "quit terminates children and only detaches attached processes", "statement": "debugger.quit() handles processes in reverse registration order, sends SIGKILL only to processes the debugger started or inherited by fork, never to a process it attached to, and when it returns normally no handled process is left registered.", "quantifier": "every process list and kernel behaviour", "why_tests_cant": "All process mixes and event orders.", "anchors": ["ptrace/debugger/debugger.py:quit", "ptrace/debugger/process.py:terminate,waitExit"]}
{"id": "C30", "title": "Waiting for one process returns only its events", "statement": "waitProcessEvent(pid) asks the kernel about that pid only, returns an event of that process or raises; for a vanished child it returns a ProcessExit; with blocking=False and nothing to report it returns None and leaves the debugger unchanged.", "quantifier": "every kernel behaviour and debugger state", "why_tests_cant": "The answers of waitpid() come in any order from any process; a scheduler shows a test only a few of these orders.", "anchors": ["ptrace/debugger/debugger.py:_waitpid,_wait_event_pid"]}
{"id": "C31", "title": "Waiting for any process polls fairly in order", "statement": "waitProcessEvent() with several processes polls each registered pid in registration order without ever waiting on unknown pids, and returns the first reported event.", "quantifier": "every process set and kernel behaviour", "why_tests_cant": "Which processes are ready at each poll depends on the scheduler; tests cannot force all patterns.", "anchors": ["ptrace/debugger/debugger.py:_wait_event"]}
{"id": "C32", "title": "waitSignals filter", "statement": "waitSignals(signals) returns an event only if it is a stop by one of the signals (any, if none given); every other event is raised as exception, none is swallowed; waitSyscall waits for SIGTRAP with the sysgood bit exactly when enabled.", "quantifier": "every event and signal list", "why_tests_cant": "All kinds of events can arrive while one waits; tests provoke one or two.", "anchors": ["ptrace/debugger/debugger.py:waitSignals,waitSyscall"]}
{"id": "C33", "title": "SIGTRAP is never delivered by resuming", "statement": "cont() and syscall() pass the requested signal unchanged to the kernel except SIGTRAP which becomes 0, and mark the process running.", "quantifier": "every signal number", "why_tests_cant": "Tests resume with the few signals that sample programs receive.", "anchors": ["ptrace/debugger/process.py:filterSignal,cont,syscall,waitExit"]}
{"id": "C34", "title": "Syscall enter and exit alternate", "statement": "For every sequence of syscall stops of a process, events are interpreted strictly alternately as enter and exit; an exit reports the call recorded at the matching enter, ignored calls are reported neither at enter nor at exit, and the stop after a successful execve is skipped exactly when exec events are not traced.", "quantifier": "every sequence of stops, clear() calls and ignore predicates", "why_tests_cant": "The alternation can be broken by any interleaving of stops, signals, clear() and ignored calls; a test traces short and regular histories.", "anchors": ["ptrace/debugger/syscall_state.py:SyscallState"]}
{"id": "C35", "title": "Syscall results", "statement": "The displayed result is the signed word; a negative value that is a known errno is shown with its symbol, values 0..9 in decimal only, others with the word in hex; pointer results as addresses.", "quantifier": "every 64/32-bit return value", "why_tests_cant": "The limit between results and errors is a few values among 2^64, which sample programs do not return.", "anchors": ["ptrace/syscall/ptrace_syscall.py:PtraceSyscall.exit"]}
{"id": "C36", "title": "Syscall arguments", "statement": "Each argument shown for a known syscall is the value of the ABI register of its position with the prototype's type and name, in order, and the number shown is the number in the prototype (at most the number of argument registers); unknown syscalls show all argument registers.", "quantifier": "every register file, syscall number, CPU", "why_tests_cant": "Arguments are read from any register contents on every supported CPU; tests run on one.", "anchors": ["ptrace/syscall/ptrace_syscall.py:readSyscall,readArgumentValues,readArguments"]}
{"id": "C37", "title": "Function call formatting", "statement": "format() joins the argument texts with ', ', drops exactly the trailing empty arguments, and shows result type, argument types and names exactly when the options ask for it.", "quantifier": "every argument list and option set", "why_tests_cant": "Argument lists and the combinations of options are unbounded; tests compare a few whole lines.", "anchors": ["ptrace/func_call.py:FunctionCall.format,__getitem__,addArgument", "ptrace/func_arg.py:FunctionArgument.format"]}
{"id": "C38", "title": "Integer arguments are shown with their value", "statement": "An argument of an integer type is displayed as the number the kernel receives (signed where the C type is signed).", "quantifier": "every argument value and integer type of the tables", "why_tests_cant": "Wrong signs and lost bits show only for large values, and each type of the tables has 2^64 of them.", "anchors": ["ptrace/syscall/syscall_argument.py:createText"]}
{"id": "C39", "title": "String arrays are bounded", "statement": "readCStringArray stops at the NULL pointer or after max_array_count strings, shows the strings in order, and says 'more than N' only when there are more than N.", "quantifier": "every memory content and limit", "why_tests_cant": "Unterminated arrays of any content.", "anchors": ["ptrace/syscall/syscall_argument.py:readCStringArray"]}
{"id": "C40", "title": "socketcall demultiplexing", "statement": "On architectures with socketcall(2) every call number is replaced by the corresponding socket function and its arguments are the successive words at the args pointer.", "quantifier": "every call number and memory content", "why_tests_cant": "On i386 the arguments are in memory of the traced program, which can hold anything.", "anchors": ["ptrace/syscall/socketcall.py:setupSocketCall"]}
{"id": "C41", "title": "Socket address display", "statement": "For an AF_INET address in memory the displayed port and IP are those of the network-order bytes.", "quantifier": "all 2^48 addresses, both byte orders", "why_tests_cant": "There are 2^48 addresses with ports, and the other byte order cannot be tested on the same machine.", "anchors": ["ptrace/syscall/socketcall_struct.py:in_addr,in6_addr,ip_int2str", "ptrace/syscall/socketcall.py:formatSockaddrInStruct"]}
{"id": "C42", "title": "Backtraces are bounded", "statement": "getBacktrace terminates on every memory content (including cyclic frame chains), returns at most max_depth frames of at most max_args arguments, and truncated is set exactly when the depth limit stopped it.", "quantifier": "every memory content and register values", "why_tests_cant": "A corrupted stack can have any shape, loops included; a test program has a sound stack.", "anchors": ["ptrace/debugger/backtrace.py:getBacktrace,getBacktraceFrame"]}
{"id": "C43", "title": "Expressions are evaluated safely", "statement": "parseExpression never evaluates text containing anything but digits, parentheses and arithmetic operators, whatever the input and register values; otherwise it raises ValueError.", "quantifier": "every input string", "why_tests_cant": "The input is any string; the dangerous ones are those that nobody thought of when writing tests.", "anchors": ["ptrace/debugger/parse_expr.py:parseExpression,replaceHexadecimal"]}
{"id": "C44", "title": "Debugger expressions denote words", "statement": "gdb's parseInteger, when it returns, returns a value in the CPU word range; decimal and hexadecimal literals and $registers denote their value; a leading * reads memory.", "quantifier": "every input string, register file", "why_tests_cant": "The input is any string with any register contents; tests evaluate a few expressions.", "anchors": ["gdb.py:parseInteger,parseIntegers"]}
{"id": "C45", "title": "hexdump covers the range exactly once", "statement": "The hexdump command shows every byte of the requested (possibly limited) range exactly once, in order, and reports exactly the unreadable lines as error ranges.", "quantifier": "every range, width and pattern of unreadable lines", "why_tests_cant": "Lines can become unreadable at any place, and ranges begin and end anywhere in a line.", "anchors": ["gdb.py:Gdb.hexdump,formatHexa,formatAscii"]}
{"id": "C46", "title": "switch visits every process", "statement": "Repeating the switch command without argument cycles through all traced processes; switch <pid> selects that process or reports an error, changing nothing else.", "quantifier": "every process list", "why_tests_cant": "The order of the processes and the current one change with every event; tests debug one process.", "anchors": ["gdb.py:switch,switchProcess,nextProcess"]}
{"id": "C47", "title": "A received signal is redelivered exactly once", "statement": "A signal that stopped a process in gdb.py is passed to the process at the next cont, and only once; 'signal N' overrides it.", "quantifier": "every sequence of signal stops and cont/signal commands", "why_tests_cant": "Signals can arrive at any stop of any command; a test can send one at a few moments only.", "anchors": ["gdb.py:_continueProcess,cont,processSignal,signal"]}
{"id": "C48", "title": "Command lines", "statement": "A ';'-separated command line executes commands in order and stops at the first failing one; an empty line replays the last successful line.", "quantifier": "every sequence of input lines", "why_tests_cant": "A session is a sequence of lines of any length, and the empty line repeats what came before; tests type single commands.", "anchors": ["gdb.py:mainLoop,execute"]}
{"id": "C49", "title": "strace exit status", "statement": "strace.py exits with the exit code of the traced program, or 128+n if it was killed by signal n.", "quantifier": "every event history", "why_tests_cant": "The status depends on which of many events comes last; tests trace programs with a single process.", "anchors": ["strace.py:syscallTrace,main", "ptrace/tools.py:signal_to_exitcode"]}
{"id": "C50", "title": "strace filters", "statement": "A system call is shown only if it passes the --syscalls/--filename/--socket set (when given) and does not match --ignore-regex; unknown names in --syscalls are rejected.", "quantifier": "every option combination and syscall name", "why_tests_cant": "Filters combine names, expressions and three switches with several hundred system calls.", "anchors": ["strace.py:parseOptions,ignoreSyscall"]}
{"id": "C51", "title": "strace never leaves a stopped process behind", "statement": "After handling any event in the strace loop, the process that reported it (and its parent for a new process) has been resumed exactly once, unless it exited.", "quantifier": "every event history", "why_tests_cant": "Events of several processes can come in any order; a process left stopped shows only in rare interleavings.", "anchors": ["strace.py:syscallTrace,syscall,newProcess,processExecution"]}
{"id": "C52", "title": "Memory fault classification", "statement": "For a SIGSEGV/SIGBUS the reported reason is InstructionError exactly when the instruction pointer is the fault address, StackOverflow when the stack pointer is outside the stack mapping, otherwise a read/write/generic memory error carrying the fault address.", "quantifier": "every fault address, register file, mapping list and instruction text", "why_tests_cant": "The report depends on address, registers, mappings and the text of the instruction; the crash programs of the tests have one combination each.", "anchors": ["ptrace/debugger/ptrace_signal.py:memoryFault,memoryFaultInstr,movsInstr,_analyze"]}
{"id": "C53", "title": "Fault address mapping report", "statement": "An address is reported as part of a mapping exactly when the accessed bytes touch that mapping, and as not mapped exactly when they touch none.", "quantifier": "every address, size and mapping list", "why_tests_cant": "Errors are at the limits of mappings and of accesses, which crash programs do not hit exactly.", "anchors": ["ptrace/debugger/signal_reason.py:findMappings"]}
{"id": "C54", "title": "Child file descriptors", "statement": "createChild with close_fds closes every descriptor from 3 to MAXFD-1 except the error pipe and pass_fds, and nothing else; pass_fds implies close_fds and the passed descriptors are inheritable.", "quantifier": "every descriptor set", "why_tests_cant": "The descriptors that are open in the parent, and those to be passed, form arbitrary sets; a test process has three or four.", "anchors": ["ptrace/debugger/child.py:createChild,_createChild"]}
{"id": "C55", "title": "Child start-up errors reach the parent", "statement": "If the program cannot be executed, createChild raises the child's error in the parent after reaping the child; on success it returns the pid; interrupted system calls are retried; the child never returns into the caller's code.", "quantifier": "every failure point and EINTR pattern", "why_tests_cant": "The child can fail at every step and every call can be interrupted; tests see the failure of exec().", "anchors": ["ptrace/debugger/child.py:_createParent,_createChild,_execChild,_read_no_intr"]}
{"id": "C56", "title": "ptrace() error detection", "statement": "ptrace() raises PtraceError with the kernel's errno exactly when the system call failed; a peeked word of all ones is returned, not taken for an error.", "quantifier": "every return value and errno, both backends", "why_tests_cant": "A word of -1 in memory, or an errno left by an earlier call, are needed to show the difference; sample programs have neither.", "anchors": ["ptrace/binding/func.py:ptrace", "cptrace/cptrace.c:cpython_cptrace,cpython_ptrace"]}
{"id": "C57", "title": "Unaligned word access is refused before reaching the kernel", "statement": "readWord/writeWord at an address that is not a multiple of the word size raise PtraceError and issue no ptrace call.", "quantifier": "every address", "why_tests_cant": "Unaligned addresses occur only when something else is already wrong; tests read aligned words.", "anchors": ["ptrace/binding/func.py:_peek,_poke"]}
{"id": "C58", "title": "Program location", "statement": "locateProgram returns absolute names unchanged, relative paths made absolute against the working directory, and bare names resolved to the first executable PATH entry or unchanged.", "quantifier": "every name, PATH and file system", "why_tests_cant": "PATH and the file system are those of the user; a test has one PATH.", "anchors": ["ptrace/tools.py:locateProgram"]}
{"id": "C59", "title": "Syscall tables", "statement": "For every architecture every syscall named by SOCKET_SYSCALL_NAMES that exists has a prototype; every prototype has at most six arguments, a result type, and every preformatted argument index exists.", "quantifier": "every entry of every table", "why_tests_cant": "Whole-table properties across seven tables.", "anchors": ["ptrace/syscall/linux/*.py", "ptrace/syscall/prototypes.py", "ptrace/syscall/names.py"]}
{"id": "C60", "title": "Disassembly windows", "statement": "dumpCode never reads more than 1024 bytes when a stop is given, disassemble yields at most nb_instr instructions, and disassembleOne returns the first decoded instruction or raises.", "quantifier": "every start/stop/count and decoder behaviour", "why_tests_cant": "The decoder may return any number of instructions of any length; ranges end inside of instructions.", "anchors": ["ptrace/debugger/process.py:dumpCode,_dumpCode,disassemble,disassembleOne", "ptrace/disasm.py:disassemble,disassembleOne"]}
{"id": "C61", "title": "Bit sets in memory", "statement": "fd_set and sigset arguments list exactly the indices whose bit is set (below nfds for select), in increasing order.", "quantifier": "every memory content and nfds", "why_tests_cant": "A set of 1024 descriptors has 2^1024 contents and any length.", "anchors": ["ptrace/syscall/syscall_argument.py:iterBits,readBits,formatValuePointer"]}
{"id": "C62", "title": "inverseDict", "statement": "For a dictionary with distinct values inverseDict is its inverse; in general every pair of the result is a reversed pair of the input.", "quantifier": "every dictionary", "why_tests_cant": "Dictionaries are arbitrary, with equal values or without; tests use those of the library.", "anchors": ["ptrace/tools.py:inverseDict"]}
{"id": "C63", "title": "terminate", "statement": "terminate() never signals a process that the debugger attached to or that is not running, otherwise sends SIGKILL exactly once; it returns True only when the process is known dead.", "quantifier": "every process state and kernel behaviour", "why_tests_cant": "The process can be running, stopped, dead or not ours, and the kernel can refuse; a test kills a process that it has started.", "anchors": ["ptrace/debugger/process.py:terminate,waitExit"]}
{"id": "C64", "title": "waitExit forwards signals", "statement": "While waiting for the end of a process every received signal other than SIGTRAP/SIGSTOP is redelivered unchanged and those two are suppressed; it returns only after an exit event.", "quantifier": "every event sequence", "why_tests_cant": "Any sequence of signals can come before the end; a test waits for a program that ends at once.", "anchors": ["ptrace/debugger/process.py:waitExit"]}
{"id": "C65", "title": "Event message is the new process id", "statement": "ptrace_geteventmsg returns the process id stored by the kernel for a fork/vfork/clone event.", "quantifier": "every pid and platform", "why_tests_cant": "All pids, word sizes and byte orders.", "anchors": ["ptrace/binding/func.py:ptrace_geteventmsg"]}
{"id": "C66", "title": "Pointer registers", "statement": "getInstrPointer, getStackPointer and getFramePointer return the program counter, stack pointer and frame pointer of the architecture; after setInstrPointer(v) the program counter is v modulo the register size.", "quantifier": "every register file and architecture", "why_tests_cant": "All register contents on all architectures.", "anchors": ["ptrace/binding/cpu.py:CPU_INSTR_POINTER,CPU_STACK_POINTER,CPU_FRAME_POINTER", "ptrace/debugger/process.py:getInstrPointer,setInstrPointer,getStackPointer,getFramePointer"]}
{"id": "C67", "title": "Register dump", "statement": "dumpRegs prints one line per register of the architecture, in table order, with the register name and its exact value in hexadecimal.", "quantifier": "every register file and architecture", "why_tests_cant": "Register contents and the structures of all architectures; a test sees its own.", "anchors": ["ptrace/tools.py:dumpRegs", "ptrace/debugger/process.py:dumpRegs"]}
{"id": "C68", "title": "Breakpoints are traps", "statement": "The bytes a breakpoint installs form the trap instruction of the architecture at the breakpoint address; a creation that fails leaves memory unchanged.", "quantifier": "every architecture, address and size", "why_tests_cant": "Architectures the tests never run on and page boundaries.", "anchors": ["ptrace/debugger/breakpoint.py:Breakpoint"]}
{"id": "C69", "title": "String and pointer arguments", "statement": "A file name argument is shown as the C string at its address, with '...' exactly when it was cut at the maximum length; the data of write() on a standard descriptor is shown up to the maximum length; null pointers are shown as NULL; unreadable memory never raises an error but shows the address.", "quantifier": "every memory content, address, length limit and option set", "why_tests_cant": "Pointers of a traced program may point anywhere, and strings may have no end; sample programs pass sound strings.", "anchors": ["ptrace/syscall/syscall_argument.py:createText,readCString,readString,formatValuePointer", "ptrace/func_arg.py:getText,formatPointer"]}
{"id": "C70", "title": "Structure arguments", "statement": "A pointer to struct timeval, timespec or rlimit is shown with each field equal to the number the C structure contains at that field.", "quantifier": "every memory content, word size and byte order", "why_tests_cant": "Fields have any contents; the signs and sizes of fields differ between word sizes.", "anchors": ["ptrace/func_arg.py:readStruct", "ptrace/syscall/linux_struct.py"]}
{"id": "C71", "title": "Process information", "statement": "dumpProcessInfo logs exactly the identifier and parent, the state with its meaning, the command line, the environment, the working directory and the real (and different effective) user and group of the proc directory; parts that cannot be opened are left out and no exception is raised for them.", "quantifier": "every content of the proc files", "why_tests_cant": "Arbitrary file contents and any combination of permissions.", "anchors": ["ptrace/process_tools.py:dumpProcessInfo", "ptrace/linux_proc.py:getSystemBoot"]}
{"id": "C72", "title": "ptrace requests", "statement": "Each ptrace_* wrapper issues exactly the request of its operating system, with the documented pid, address and data arguments, and nothing else.", "quantifier": "every operating system, pid and argument", "why_tests_cant": "All systems the tests never run on.", "anchors": ["ptrace/binding/func.py:ptrace_attach,ptrace_detach,ptrace_kill,ptrace_cont,ptrace_syscall,ptrace_singlestep,ptrace_setoptions"]}
{"id": "C73", "title": "Register structures", "statement": "The register structure of every supported system and CPU has the fields of the kernel's structure in the kernel's order and sizes.", "quantifier": "every system and CPU", "why_tests_cant": "Architectures the tests never run on.", "anchors": ["ptrace/binding/linux_struct.py", "ptrace/binding/freebsd_struct.py", "ptrace/binding/openbsd_struct.py"]}
{"id": "C74", "title": "Flag tables", "statement": "The bits named by the tables of open, mmap, clone, access and socket flags are the bits of the kernel headers.", "quantifier": "every bit of every table", "why_tests_cant": "A wrong bit in a table shows only in a program that uses this flag, and many of them are seldom used.", "anchors": ["ptrace/syscall/posix_arg.py", "ptrace/syscall/linux_constants.py", "ptrace/syscall/posix_constants.py", "ptrace/syscall/socketcall_constants.py"]}
{"id": "C75", "title": "Stack dump", "statement": "dumpStack logs exactly the readable words among the eleven around the stack pointer, in order, each with its offset and value, and an error line when none is readable; unreadable memory raises nothing.", "quantifier": "every memory content and stack pointer", "why_tests_cant": "The stack pointer can be anywhere, also at the end of a mapping.", "anchors": ["ptrace/debugger/process.py:dumpStack,_dumpStack"]}
{"id": "C76", "title": "Steps remove their breakpoint", "statement": "The temporary breakpoint of the step and until commands is removed again whatever stops the process or goes wrong while waiting; on success the instruction pointer has been restored to its address.", "quantifier": "every address and every behaviour of the process and kernel", "why_tests_cant": "All interleavings of signals, exits and errors.", "anchors": ["gdb.py:step,until"]}
{"id": "C77", "title": "The debugger is always shut down", "statement": "gdb.py calls debugger.quit() after every session, including sessions that end with an exception, and no exception escapes from main (exit() during the set-up excepted).", "quantifier": "every session", "why_tests_cant": "A session can end by any command, event or exception at any moment; tests end by quit.", "anchors": ["gdb.py:main,runDebugger"]}
{"id": "C78", "title": "Interruption", "statement": "A user interruption sends exactly one SIGINT to every process that is running (not stopped, not traced-stopped) and then waits once for each of these processes, in the same order.", "quantifier": "every set of processes", "why_tests_cant": "The processes can be running, stopped or just ending when the user interrupts; the moment cannot be forced.", "anchors": ["gdb.py:interrupt"]}
{"id": "C79", "title": "System call numbers", "statement": "On every Linux architecture the name given to a system call number is the kernel's name (or the documented historical name of the same entry point), and every number below the end of the table is named.", "quantifier": "every number of every architecture", "why_tests_cant": "Tables of architectures the tests never run on.", "anchors": ["ptrace/syscall/linux/*.py", "ptrace/syscall/names.py"]}
{"id": "C80", "title": "Prototypes", "statement": "Every prototype has the number of arguments of the system call; an argument is treated as a file name exactly when the system call takes a path name there.", "quantifier": "every system call with a prototype", "why_tests_cant": "Several hundred entries were typed by hand or generated; a wrong one shows only in a trace of this system call.", "anchors": ["ptrace/syscall/prototypes.py:SYSCALL_PROTOTYPES,FILENAME_ARGUMENTS"]}
{"id": "C81", "title": "strace always shuts the debugger down", "statement": "strace.py calls debugger.quit() last, whatever ends the tracing (an error while displaying the call in progress of a process that ended during an execve excepted); quit() then signals only processes that strace itself started, and none stays registered.", "quantifier": "every run, including runs ended by exceptions", "why_tests_cant": "Every history and every failure at every moment; tests trace programs that end normally.", "anchors": ["strace.py:_main,runDebugger", "ptrace/debugger/debugger.py:quit"]}
{"id": "C82", "title": "strace lines", "statement": "A displayed system call is one line: the bracketed process id and instruction address exactly when asked for, the formatted call padded to 40 columns, ' = ' and the result when the call returned; a call in progress when its process ends is shown before the end message.", "quantifier": "every call, option set and process state", "why_tests_cant": "Calls, options and states of the process combine freely; tests look for words in the output.", "anchors": ["strace.py:displaySyscall,processExited"]}
{"id": "C83", "title": "Kind of an invalid access", "statement": "An invalid access is reported as a write exactly when the faulting instruction writes to the dereferenced operand (a string move: when the fault address is its destination), and as a read exactly when it only reads it.", "quantifier": "every instruction text, fault address and register file", "why_tests_cant": "The text of any instruction with any operands; there is one crash program for reading and one for writing.", "anchors": ["ptrace/debugger/ptrace_signal.py:memoryFaultInstr,movsInstr"]}
{"id": "C84", "title": "Size of an invalid access", "statement": "When the instruction names the size of the dereferenced operand (BYTE, WORD, DWORD...) the report of the fault gives that size in bytes.", "quantifier": "every instruction text", "why_tests_cant": "All instruction texts of the disassembler; the crash programs have one each.", "anchors": ["ptrace/debugger/ptrace_signal.py:findDerefSize,DEREF_REGEX,NAMED_WORD_SIZE"]}
{"id": "C85", "title": "Registers of a fault report", "statement": "The report of an invalid access shows, with its value, every register named by the operands of the instruction, and every value shown is the value of that register.", "quantifier": "every instruction text and register file", "why_tests_cant": "Operands combine all registers; crash programs use the usual ones.", "anchors": ["ptrace/debugger/signal_reason.py:extractRegisters,REGISTER_REGEX"]}
{"id": "C86", "title": "Division by zero", "statement": "A SIGFPE is reported as a division by zero exactly when the current instruction is a division whose divisor is zero.", "quantifier": "every instruction and register file", "why_tests_cant": "All forms of the division; the crash program has one.", "anchors": ["ptrace/debugger/ptrace_signal.py:mathError"]}
{"id": "C87", "title": "End of a child", "statement": "A SIGCHLD is reported with the way the child ended: its exit code, or the signal that killed it.", "quantifier": "every end of a child", "why_tests_cant": "A child can end with each of 256 codes or any signal; there is no test.", "anchors": ["ptrace/debugger/ptrace_signal.py:childExit", "ptrace/debugger/signal_reason.py:ChildExit"]}
{"id": "C88", "title": "Signal report lines", "statement": "The report of a signal is, between two lines of 60 dashes: the process identifier, the name of the signal, and when there is a reason its text, the user (SIGCHLD), the instruction, one line per mapping line and one line per register with its value.", "quantifier": "every signal and process", "why_tests_cant": "There are 64 signals with their own information each; no test looks at these lines.", "anchors": ["ptrace/debugger/ptrace_signal.py:display", "ptrace/debugger/signal_reason.py:SignalInfo.display"]}
{"id": "C89", "title": "No output", "statement": "With no_stdout the executed program has the null device as standard output and standard error, and its other descriptors are as without it.", "quantifier": "every set of open descriptors", "why_tests_cant": "All descriptor sets, including closed standard ones.", "anchors": ["ptrace/debugger/child.py:_execChild"]}
{"id": "C90", "title": "No descriptor leak in the parent", "statement": "After createChild, whether it returns or raises, the descriptors of the parent are those it had before.", "quantifier": "every descriptor set, failure point and EINTR pattern", "why_tests_cant": "Each call of the parent can fail or be interrupted; system calls of a test machine work.", "anchors": ["ptrace/debugger/child.py:createChild,_createParent"]}
{"id": "C91", "title": "Error reports", "statement": "writeError never swallows SystemExit or KeyboardInterrupt; for any other error it logs the title, class and message at the given level and then the traceback, one right-stripped line per line in order, one level lower; the report is never empty.", "quantifier": "every error, level and traceback text", "why_tests_cant": "Errors, levels and texts are arbitrary; an error in the report of an error hides the first one.", "anchors": ["ptrace/error.py:writeError,writeBacktrace,formatError"]}
{"id": "C92", "title": "Verbosity", "statement": "The log level follows --debug, --verbose and --quiet in this order of precedence; the message of an error is shown at every verbosity and its traceback unless only --quiet is given.", "quantifier": "every combination of options and every error", "why_tests_cant": "Eight combinations of switches, with errors at each moment; tests use the default.", "anchors": ["ptrace/debugger/application.py:_setupLog", "ptrace/error.py:writeError"]}
{"id": "C93", "title": "Profiler", "statement": "runProfiler returns the result of the profiled function, or lets its exception through, and leaves no file behind; it does not touch a file it has not written.", "quantifier": "every function, result and exception", "why_tests_cant": "The profiled function may return or raise anything; tests do not use the profiler.", "anchors": ["ptrace/profiler.py:runProfiler"]}
{"id": "C94", "title": "Decoding a code", "statement": "With a decoder that decodes correctly and at most 100 instructions at once, Decode gives all the instructions of the code, once, in order and without gaps, and ends; also when the caller keeps the instructions.", "quantifier": "every code, address and decoder", "why_tests_cant": "Codes with more than 100 instructions.", "anchors": ["ptrace/pydistorm.py:Decode"]}
{"id": "C95", "title": "Disassembler without distorm3", "statement": "When distorm3 is not installed and the code starts with an instruction, disassembleOne returns this instruction.", "quantifier": "every code", "why_tests_cant": "The decoder distorm3 is optional, and no test disassembles anything.", "anchors": ["ptrace/pydistorm.py:_WString", "ptrace/disasm.py:Instruction,disassembleOne"]}
{"id": "C96", "title": "Detection of the host", "statement": "At most one CPU flag is set and it is that of the machine; the word size is that of the CPU; at most one system flag is set and the derived flags agree with it.", "quantifier": "every machine name, platform name and pointer size", "why_tests_cant": "Names of machines and platforms are those of other computers than the test machine.", "anchors": ["ptrace/cpu_info.py", "ptrace/os_tools.py"]}
{"id": "C97", "title": "Terminal", "statement": "enableEchoMode sets the echo bit, changes nothing else, returns True exactly when it was not set, and does nothing the second time or without a terminal; terminalWidth is the number of columns.", "quantifier": "every terminal state and size", "why_tests_cant": "All flag words and sizes of terminals; tests run without a terminal.", "anchors": ["ptrace/terminal.py:enableEchoMode,terminalWidth"]}
{"id": "C98", "title": "Dates", "statement": "timestampUNIX gives the UTC or local date of a timestamp in 0..2147483647 and raises ValueError for others; the boot date is computed once and kept.", "quantifier": "every timestamp and time zone", "why_tests_cant": "All timestamps and time zones, summer time included; a test runs in one zone.", "anchors": ["ptrace/tools.py:timestampUNIX", "ptrace/linux_proc.py:getSystemBoot"]}
{"id": "C99", "title": "Instruction tracer", "statement": "itrace.py lets the process run to exactly the given number of system call stops, then makes single steps only, each preceded by a line with the address of the next instruction, until the process ends; without a limit it traces system calls for ever.", "quantifier": "every kernel behaviour and limit", "why_tests_cant": "All behaviours of the kernel and of the traced program, with and without limit; there is no test of this program.", "anchors": ["examples/itrace.py:syscallTrace"]}
{"id": "C100", "title": "Tracing options", "statement": "A new debugger asks for syscall-good stops on Linux and for nothing else; traceFork, traceExec, traceClone and enableSysgood each add exactly their own option bits and set their own flag, and change nothing else; without ptrace events traceFork raises DebuggerError and the others do nothing.", "quantifier": "every debugger state and platform", "why_tests_cant": "Options of earlier calls and of each platform combine; a wrong bit shows only when the event of another option occurs.", "anchors": ["ptrace/debugger/debugger.py:traceFork,traceExec,traceClone,enableSysgood", "ptrace/debugger/debugger.py:__init__"]}
{"id": "C101", "title": "Regular expressions", "statement": "The patterns used to parse memory maps, expressions and instructions are matched as Python does: a match exists exactly when the text has one at that place (match) or anywhere (search, leftmost), the text and groups returned form a match, word boundaries, '$' and the character classes are those of the re module.", "quantifier": "every pattern of the supported constructions and every text", "why_tests_cant": "The expressions are applied to any text; tests match a few good lines.", "anchors": ["ptrace/debugger/memory_mapping.py:PROC_MAP_REGEX", "ptrace/debugger/parse_expr.py", "ptrace/debugger/signal_reason.py:REGISTER_REGEX"]}
{"id": "C102", "title": "Command lines", "statement": "Given any sequence of their options followed by -- and a program, strace.py and gdb.py set every setting from the options that name it (flags: given or not; values: the last one given, else the default), wherever they stand, and take the words after -- unchanged as the program and its arguments, with the program located in the PATH.", "quantifier": "every sequence of options, values and program words", "why_tests_cant": "Command lines are sequences of any length; tests use fewer than ten.", "anchors": ["strace.py:parseOptions", "gdb.py:parseOptions", "ptrace/debugger/application.py:createCommonOptions,createLogOptions,processOptions"]}
{"id": "C103", "title": "Equivalent spellings of an option", "statement": "--name=value is --name value, -xVALUE is -x VALUE, -ab is -a -b, an unambiguous beginning of a long option is that option and an ambiguous one is rejected; numbers are read in decimal, hexadecimal, octal and binary; --help exits with status 0.", "quantifier": "every option table entry and value", "why_tests_cant": "Each option has several spellings with any value; tests use one spelling.", "anchors": ["strace.py:parseOptions", "gdb.py:parseOptions", "ptrace/debugger/application.py:createCommonOptions"]}
{"id": "C104", "title": "Followed terms", "statement": "follow adds the bytes of the written literal, showfollow shows the terms unambiguously, and xray gives, for every term, traced process and memory mapping, the addresses where the term is in memory (none missed, none wrong), each with the addresses of the words that point to it.", "quantifier": "every term, set of processes, mappings and memory content", "why_tests_cant": "Terms and memory are arbitrary; tests do not search the memory of a process.", "anchors": ["gdb.py:parseBytes,addFollowTerm,showFollowTerms,_xray,xray", "gdb.py:getPointers"]}
{"id": "C105", "title": "Memory dump", "statement": "gcore writes to the dump file the contents of all readable mappings of the process that are not part of a shared library, in the order of their addresses.", "quantifier": "every memory map and memory content", "why_tests_cant": "The memory map and the memory are those of the debugged program; there is no test of this command.", "anchors": ["gdb.py:gcore"]}
{"id": "C106", "title": "Help", "statement": "help shows each command of the debugger exactly once with its description, and each command shown except quit is a command that execute() knows; dbginfo shows the process identifier, version and website.", "quantifier": "every command", "why_tests_cant": "The table of commands and the code that executes them are written in different places; a test asks for help once.", "anchors": ["gdb.py:COMMANDS,help,debuggerInfo,execute"]}
{"id": "C107", "title": "Single commands", "statement": "Each command of gdb.py does, call by call, exactly what it is for: what it asks the processes to do, in this order, what it tells the user, and which state it leaves (print, where, set, break, delete, step, stepi, until, cont, sys, attach, proclist, breakpoints, signals, end of input, Ctrl-C, failure to start).", "quantifier": "every state of the debugger, every expression and every answer of the processes", "why_tests_cant": "A debugger that removes the wrong breakpoint, moves the instruction pointer or reports success for an error misleads its user.", "anchors": ["gdb.py:execute,print_,where,set_,break_,delete,step,stepi,until,cont,syscallTrace,attachProcess,displayBreakpoints,displaySignals,mainLoop,runDebugger"]}
{"id": "C108", "title": "Start and end of strace", "statement": "strace asks ptrace for exactly the events its options name; --fork on a system that can not trace forks ends it with a message and status 1 before any process is created; the program is created, shown as an execve call and added as already attached, while --pid announces and attaches the process; a process that can not be added is reported; Ctrl-C is reported and gives code 1.", "quantifier": "every option record, every result of createChild and of the kernel", "why_tests_cant": "The tracer must not run the program before tracing is set up, and must not attach twice.", "anchors": ["ptrace/debugger/application.py:setupDebugger,createProcess", "strace.py:createChild,_main,main,runDebugger"]}
{"id": "C109", "title": "Fault address without siginfo", "statement": "Where the kernel gives no fault address (BSD), the address of the reported access is the value of the dereferenced expression of the instruction; without instruction or value the report names no address; errors other than ValueError are passed on.", "quantifier": "every instruction with a dereferenced operand, every register content", "why_tests_cant": "All expressions and register values.", "anchors": ["ptrace/debugger/ptrace_signal.py:evalFaultAddress,memoryFaultInstr,memoryFault", "ptrace/debugger/signal_reason.py:InvalidMemoryAccess"]}
{"id": "C110", "title": "Command lines without --", "statement": "Without --, the first word that is not an option is the program and the words after it are its arguments; --pid names a process.", "quantifier": "every command line without --", "why_tests_cant": "Options of the program and of the tracer can be mixed in any order; tests always write --.", "anchors": ["strace.py:parseOptions", "gdb.py:parseOptions", "ptrace/debugger/application.py:createProcess"]}
{"id": "C111", "title": "Generated prototypes", "statement": "For a header in which every declaration is written as in the kernel (words of the type, stars, name; __user anywhere; names that do not end like a type, types without name that do), the generator prints one entry per declared system call, in the order of the names, with the types and names of the parameters as declared (the last declaration counts; int * of pipe is int[2]); the shipped table is what it prints for its own declarations.", "quantifier": "every header, every number of lines, declarations and parameters", "why_tests_cant": "The table that strace relies on is generated by this program.", "anchors": ["SYSCALL_PROTOTYPES.codegen.py", "ptrace/syscall/prototypes.py"]}
{"id": "C112", "title": "Prototypes of any C declaration", "statement": "Types and names of the parameters are those of the C declaration, however it is written.", "quantifier": "every C declaration", "why_tests_cant": "Other names and other spacing are legal C.", "anchors": ["SYSCALL_PROTOTYPES.codegen.py"]}
{"id": "C113", "title": "What is left of a process that is let go", "statement": "Detaching a process and the destruction of its PtraceProcess object send at most one PTRACE_DETACH, and exactly one when the process was attached and running; they change no byte of its memory, and nothing done with its breakpoint objects afterwards does either; when every breakpoint was removed before, the process is left with the memory it was found with. The destructors let no PtraceError out. Breakpoints that are still installed when a process is detached, or whose process object is destroyed, should be removed from the memory of the process (the code leaves the traps behind).", "quantifier": "for all platforms, memories, histories of breakpoint creations and removals, outcomes of PTRACE_DETACH", "why_tests_cant": "A trap left in a process that runs on without debugger kills it with SIGTRAP.", "anchors": ["ptrace/debugger/process.py:291-298", "ptrace/debugger/process.py:761-765", "ptrace/debugger/breakpoint.py:39-66"]}
{"id": "C114", "title": "The example debugger", "statement": "examples/simple_dbg.py with a number attaches exactly this process and starts none; with anything else it starts the located program with its arguments and attaches nothing; without arguments it writes the usage and exits with status 1; it writes the registers (or that they can not be read), the dialogue and the message of the event it waited for, and ends with quit(). Whatever happens after the process is traced, it should be let go (the code does not when an exception is raised).", "quantifier": "every command line, every answer of the kernel and of the register read", "why_tests_cant": "The shipped example is what users of the library copy.", "anchors": ["examples/simple_dbg.py:7-57", "ptrace/debugger/process.py:712-719"]}
{"id": "C115", "title": "The test runner", "statement": "runtests.py looks at exactly the Python files of the tests directory at any depth that are not hidden or private, and the __init__.py of packages; it runs exactly the tests of the names containing Test of the modules that load, filtered by the patterns; it names each module that does not load, ends with the exception of a syntax error, and exits with status 0 exactly when the runner was successful; modules should be named by their path, and a run in which test modules did not load should not be a success (the code violates both).", "quantifier": "every directory tree, every result of loading modules, every set of options and patterns", "why_tests_cant": "Tests that are silently not run protect nothing.", "anchors": ["runtests.py:74-157", "runtests.py:198-267"]}
{"id": "C116", "title": "Prototypes of the kernel header", "statement": "Given the declarations of the system calls of include/linux/syscalls.h, the generator prints exactly the table that ships in ptrace/syscall/prototypes.py (getcwd apart, whose buffer the shipped table names pathname): same calls, same order, same types and names of the parameters.", "quantifier": "the whole table (375 declarations, written down independently from the kernel header)", "why_tests_cant": "Pins the content of the shipped table, entry by entry, to the C declarations it is made from.", "anchors": ["ptrace/syscall/prototypes.py", "SYSCALL_PROTOTYPES.codegen.py"]}
{"id": "C117", "title": "What pointers point to", "statement": "A pointer to a known structure is shown as <Type field=value, ...> at its address, the fields at the offsets and with the signs of the C declaration, by their own formatter or as numbers; a pointer to int is the signed number stored there; an array of a given number of ints is the list of its elements; a socket address is read as the structure of its family; socket options are read by their type; byte strings are printed as Python literals that give the bytes back.", "quantifier": "all processes memory contents, addresses and structures", "why_tests_cant": "What a user sees of a pointer argument must be what is in the memory of the process.", "anchors": ["ptrace/func_arg.py:69-105", "ptrace/syscall/syscall_argument.py:76-220", "ptrace/syscall/socketcall.py", "ptrace/syscall/linux_struct.py", "ptrace/syscall/socketcall_struct.py"]}
{"id": "C118", "title": "Arguments after the call", "statement": "When a system call returns, values, types and names of its arguments are unchanged; the remembered text is dropped exactly for pointers and arguments without a type, so that they are formatted from the memory after the call, unless the call destroys what they point to (select sets, execve and clone arguments), in which case the text made at the entry exists and is kept.", "quantifier": "all calls, arguments, results and platforms", "why_tests_cant": "The exit line of strace must show the data the call has written, and must not read memory that is gone.", "anchors": ["ptrace/syscall/ptrace_syscall.py:67-83", "ptrace/syscall/ptrace_syscall.py:121-153", "ptrace/syscall/prototypes.py"]}
{"id": "C119", "title": "Errors of a debugger command", "statement": "A command of gdb.py that fails is reported and does not end the session: the commands behind it on the line are not executed and the next line is read. gcore writes the core file.", "quantifier": "every command, line and error", "why_tests_cant": "Each command can fail with each kind of error; tests use commands that work.", "anchors": ["gdb.py:mainLoop,execute,set,gcore"]}
{"id": "C120", "title": "Help of the debugger", "statement": "The help of gdb.py lists exactly the commands that are understood: each listed command is understood (alone or with an argument), each text understood begins with a listed command, and none is listed twice.", "quantifier": "every command text", "why_tests_cant": "All texts, also those close to a command.", "anchors": ["gdb.py:help,execute,COMMANDS"]}
{"id": "C121", "title": "The log of strace is the history of the program", "statement": "For a program that runs as a single process on Linux (started or attached), however many calls, executions and signals it performs and however it ends, strace writes the line of the start, for every selected call one line with its arguments and its own result (two with --enter), the line of every reported execution, the call the program ended in, and the line of the end, in the order of the events and nothing else; it resumes the process after every stop, with the signal it got; it exits with the code of the program or, if the program was killed, with that of the last signal seen.", "quantifier": "every program (unbounded lists of calls, executions and signals), every ending, all options, all register and memory contents", "why_tests_cant": "The end-to-end statement about strace: the trace tells what the program did.", "anchors": ["strace.py:158-281", "ptrace/debugger/syscall_state.py:13-47", "ptrace/debugger/debugger.py:74-223", "ptrace/debugger/application.py:51-79"]}
{"id": "C122", "title": "Events and errors that stop a debugger command", "statement": "In gdb.py an event or error that stops a command line is handled as follows: an exit is told and the first remaining process becomes the current one; a new process is only told; a signal is explained, its process becomes current and the signal is remembered for it; an execution is told, its process becomes current and every process is interrupted; a ptrace error is told, and for ESRCH the dead process is declared terminated and replaced if it was the current one; anything else is re-raised. An unreadable instruction size is told and the command goes on without it; 'until' stopped by an event removes its breakpoint without moving the instruction pointer.", "quantifier": "all events, errors, debugger states and environments that answer each question consistently", "why_tests_cant": "a lost or misdirected event leaves the user working on a dead or wrong process", "anchors": ["gdb.py:566-598", "gdb.py:660-714", "gdb.py:738-800"]}
{"id": "C123", "title": "The log of strace --fork follows every process", "statement": "A program that makes processes and threads (fork, vfork, clone) on Linux, in any interleaving of their events until all of them have ended: strace writes the line of the start and then the lines of each event, and the lines that concern a process are exactly those its own events call for (a call is shown with its own arguments and result even if other processes enter and leave calls in between); every process is resumed after each of its stops, new ones first get the options; nothing else is requested; strace returns when the last process has ended. A history has only one such account, and every history can happen.", "quantifier": "all platforms running Linux, options, kernels, histories of any length with any number of processes, any number of polling turns", "why_tests_cant": "An interleaving must not mix up the state of two processes, lose a line or leave a process stopped.", "anchors": ["strace.py:158-281", "ptrace/debugger/debugger.py:74-241", "ptrace/debugger/syscall_state.py:13-47", "ptrace/debugger/process.py:355-413"]}
{"id": "C124", "title": "The instructions shown are those of the program", "statement": "Given a disassembler that decodes the bytes it is handed correctly, disassembleOne() returns the instruction that is in memory at the address, disassemble() the instructions that follow each other from the address (a given number of them, or those in a range), and the dump of the code that hides breakpoints shows the instructions of the program, not the traps that replace their first bytes. (The code violates each part: it reads at most 11 bytes on x86_64 and 8 on i386 for an instruction, cuts the instruction at the end of a range into others, and decodes the instruction under a breakpoint from the replaced bytes only.)", "quantifier": "all instruction sets (functions from bytes to an instruction that depend on its own bytes only), memory contents, addresses, ranges, numbers and sets of breakpoints", "why_tests_cant": "gdb.py puts the breakpoint of step after the instruction it believes to be there, and a wrong listing misleads its user.", "anchors": ["ptrace/debugger/process.py:192-283", "ptrace/disasm.py:1-75"]}
{"id": "C125", "title": "A program debugged with breakpoints runs as without the debugger", "statement": "On Linux and Intel CPUs, whatever breakpoints are set and deleted and however the program is continued or stepped with gdb.py: every stop shows the registers of a state the program reaches without any debugger, the memory is that of this state except for the bytes under breakpoints (which hold INT 3, the replaced bytes being kept), a stop at a breakpoint happens before the instruction there, and once the breakpoints are gone the memory is that of the program. Every such run can be seen. The program must not itself read or write the bytes under breakpoints nor contain INT 3, and breakpoints must not overlap. (The code violates this if the program jumps into a breakpoint of several bytes, if a step is ended by another breakpoint, and if a single step starts on a breakpoint.)", "quantifier": "all programs (any relation between states), memories, registers, commands and sequences of commands", "why_tests_cant": "The debugger must not change the behaviour of the program it debugs.", "anchors": ["gdb.py:181-205", "gdb.py:566-598", "gdb.py:700-727", "ptrace/debugger/breakpoint.py:16-66", "ptrace/debugger/process.py:741-759"]}
{"id": "C126", "title": "The log of itrace is the path of the program", "statement": "For a program that runs as a single process on Linux (started or attached), itrace.py -n N writes the line of the start, the numbers 0 to N-1 while it lets the program come to its first N system call stops, then one line for every instruction the program executes, in order, with its number and its address, and the line of the end; it makes exactly one request after every stop; a program that ends earlier is reported with its exit code; signals are handed to the program, so that it ends as it would without itrace.py.", "quantifier": "every program (unbounded paths), every N, every ending, all options", "why_tests_cant": "The end-to-end statement about itrace: no test compares its output with what the program executed, and every path is covered.", "anchors": ["examples/itrace.py:19-49", "strace.py:226-281", "ptrace/debugger/debugger.py:74-223"]}
{"id": "C127", "title": "Which decoder shows an argument", "statement": "An argument of a system call is shown by the most specific description that applies: a constant of the tables of its call by name, flags, modes and descriptors by the decoder of that argument, signal numbers as names of signals, everything else by its type: integers in decimal, other scalars as the hexadecimal word, pointers to unknown types and to unreadable memory as the address. Every argument named in a table or decoder is an argument of the prototype of its call.", "quantifier": "all calls, arguments, values, memory contents and platforms", "why_tests_cant": "A name in a table that differs from the one in the prototype silently disables a decoder; no test formats every argument of every call.", "anchors": ["ptrace/syscall/syscall_argument.py:75-152", "ptrace/syscall/prototypes.py", "ptrace/syscall/socketcall_constants.py:62-73"]}
{"id": "C128", "title": "What a debugger command may do", "statement": "Every command of gdb.py, whatever its argument, whatever happens and however it ends, does to the traced processes only what it is for: the commands that show something only read (memory, registers, mappings, breakpoints) from the current process and the functions of the library they use change neither memory nor registers; cont and signal resume each process at most once, wait and remove only the breakpoint found in the current process; step and until set one breakpoint, resume the current process once and remove only the breakpoint they set; stepi, sys, set, break and delete act on the current process only; delete removes only the breakpoint found at the address; attach adds processes, follow evaluates its argument. Only cont, signal, switch and attach change the current process, only cont and signal the signals to deliver, only follow and resetfollow the followed terms.", "quantifier": "all commands, arguments, debugger states and environments (any answers, including exceptions, at any point)", "why_tests_cant": "A command that only shows something must be safe to type at any time; tests run single commands in single situations.", "anchors": ["gdb.py:167-205", "gdb.py:262-727", "ptrace/debugger/process.py:504-673"]}
{"id": "C129", "title": "Programs debugged by typing commands run as without the debugger", "statement": "When the user of gdb.py debugs one process by typing break, delete, cont, step, stepi, until and any commands that only show something, each command that is not ended by an exception makes exactly the calls of the action it names (one breakpoint set at the address typed, one breakpoint searched and removed, one continuation until a trap whose breakpoint is then removed with the instruction pointer set back, a breakpoint behind the current instruction or at the address typed which is removed when it is reached, one single step), leaves the process stopped and no signal pending; hence after any sequence of such lines the registers, and outside of breakpoints the memory, are those of a run of the program without debugger (under the conditions of C125).", "quantifier": "all sequences of commands, texts, programs, memories and registers, with any answers to the calls that only look", "why_tests_cant": "C125 is about the operations on breakpoints; this is the statement about what a user types.", "anchors": ["gdb.py:167-205", "gdb.py:547-598", "gdb.py:628-637", "gdb.py:688-727", "gdb.py:729-788"]}
{"id": "C130", "title": "Options of the test runner", "statement": "runtests.py runs the selected tests (C115) once and its status tells whether they succeeded; with --forever it runs them until a run fails, so that its status is never 0; each runner gets the verbosity, --failfast and --findleaks as given; --coverage without the package runs nothing and gives the status 1; a measure of coverage that is started is ended and reported once, after all the runs, however they end; with --findleaks every uncollectable object is reported once, with the test that made it.", "quantifier": "all trees, loaders, tests, options and numbers of runs", "why_tests_cant": "A runner that loses a report or ends with 0 hides failures.", "anchors": ["runtests.py:160-196", "runtests.py:198-281"]}
{"id": "C131", "title": "Signals of a debugged program", "statement": "When the program debugged by gdb.py gets signals, a command during which a signal arises stops there and the signal is remembered; the next cont delivers it. So, if the user does not step while a signal is pending, after any sequence of break, delete, cont, step, stepi, until and showing commands, interrupted by signals at any points, the registers and the memory outside of breakpoints are those of a run without debugger in which the same signals were delivered at the same points and in the same order; every signal reported was delivered once, except perhaps the last one, which is pending.", "quantifier": "all sequences of commands, programs, memories, registers, signals, points where they arise and effects of their delivery", "why_tests_cant": "A debugger that swallows, repeats or moves signals changes what the program does.", "anchors": ["gdb.py:167-205", "gdb.py:566-598", "gdb.py:628-637", "gdb.py:738-742", "gdb.py:790-847"]}
{"id": "C132", "title": "The end of a debugged program", "statement": "When gdb.py shows that the program it debugs exited with a code or was killed by a signal, during cont, step, stepi or until after any sequence of break, delete, cont, step, stepi, until and showing commands, the program did end, in the way shown; the run of the program without debugger, in which the same signals are delivered, ends in the same way; and every signal reported before was delivered, if the user does not step while a signal is pending.", "quantifier": "all sequences of commands, programs, memories, registers, signals, exit codes, killing signals and points where they arise", "why_tests_cant": "The exit status is what the user of a debugger looks at to see whether the program failed; a debugger that changes it sends them after bugs that do not exist.", "anchors": ["gdb.py:181-205", "gdb.py:566-598", "gdb.py:666-670", "gdb.py:815-847", "ptrace/debugger/process.py:354-395", "ptrace/debugger/process_event.py:17-26"]}
{"id": "C133", "title": "Examples of the documentation", "statement": "The script test_doc.py announces the six modules one after the other, runs the examples (lines behind >>> and ..., then the lines shown) of the docstrings of the functions these modules define, and ends with status 1 at the first module that has an example printing anything else than what is shown, normally if there is none. All examples of the package ptrace are right, so the script succeeds. Among them: a register of the fake process of the examples has the last value set, and a timestamp is shown as the moment of the Gregorian calendar it stands for, rounded to microseconds.", "quantifier": "all docstrings, modules, outcomes of examples, places of the script, registers and timestamps from year 1 to 9999", "why_tests_cant": "The examples are the documentation of these functions; their test is run before each release (tox.ini).", "anchors": ["test_doc.py:18-48", "ptrace/mockup.py:6-15", "ptrace/ctypes_tools.py:7-105", "ptrace/debugger/parse_expr.py:31-45", "ptrace/tools.py:26-167", "ptrace/signames.py:47-60", "ptrace/syscall/socketcall_struct.py:8-16"]}
{"id": "C134", "title": "Where the output of strace goes", "statement": "strace.py writes one line after the other, in the order of the events, to the file of --output (or -o; the last one given counts), which then has the lines of the trace and nothing else, or to stderr if there is no such option or its name is empty; no other file is written. The option changes nothing but the place: the same text, the same exit status. --quiet, --verbose and --debug do not change the lines of the trace. --profiler adds lines before and after the trace in the same place and keeps the status unless the profiler fails. A command line that is wrong or lists system calls leaves every file as it was, and a file that can not be opened means that the program is not started.", "quantifier": "all command lines, platforms, traced programs and their lines, files there before, errors and results of the profiler", "why_tests_cant": "The log is what strace is run for: it must be complete and alone in its file, and a wrong command line must not destroy an earlier log.", "anchors": ["strace.py:29-36", "strace.py:245-253", "ptrace/debugger/application.py:18-30", "ptrace/profiler.py:19-45"]}
{"id": "C135", "title": "Every module can be imported, in every order", "statement": "On every platform the project knows (Linux: PowerPC, Intel, AArch64, RISC-V; BSD and Mac OS X: any known CPU; 32 or 64 bits; with or without distorm3, cptrace and the library of pydistorm), every module of the package, the scripts strace.py and gdb.py and the examples can be imported, first or after any other modules in any order, although ptrace.debugger and ptrace.syscall import their submodules, which import the packages again; the only exception is ptrace.pydistorm, which raises OSError where its library is missing. A module then has the same names with the same values as if it were imported alone; its flags (HAS_PTRACE_xxx, CPU_xxx, RUNNING_xxx, HAS_DISASSEMBLER) are those of the platform, and functions of some platforms are there exactly on them. setup.py lists the packages of all modules.", "quantifier": "all supported platforms and options, all sequences of imports", "why_tests_cant": "an import that fails or depends on what was imported before breaks every program that uses the package, on some platforms only", "anchors": ["ptrace/__init__.py", "ptrace/binding/__init__.py", "ptrace/binding/func.py:1-115", "ptrace/debugger/__init__.py:1-9", "ptrace/syscall/__init__.py", "ptrace/syscall/names.py", "ptrace/disasm.py", "ptrace/pydistorm.py", "ptrace/cpu_info.py", "ptrace/os_tools.py", "setup.py:40-64"]}
{"id": "C136", "title": "No function reads a global name that is not there", "statement": "On every supported platform, after any sequence of imports, the functions and methods of an imported module find every global name they can read (in the module or among the builtins): none of them raises NameError, whatever conditions on the platform surround the imports and the functions. A function is in its module exactly if one of its definitions has been executed. (The code violates this on OpenBSD, where ptrace_syscall() reads PTRACE_SYSCALL, which is not defined there, and outside of Linux, where waiting for a process marked as thread reads THREAD_TRACE_FLAGS; these are the only cases.)", "quantifier": "all supported platforms and options, all sequences of imports, all functions and methods of all modules, scripts and examples", "why_tests_cant": "names imported under a condition and read under another one fail on some platforms only, and only when the function is called; no test runs there", "anchors": ["ptrace/binding/func.py:1-324", "ptrace/debugger/process.py:1-60", "ptrace/debugger/debugger.py:1-14", "ptrace/debugger/debugger.py:118-145", "ptrace/syscall/socketcall.py:1-45", "gdb.py:1-60"]}
{"id": "C137", "title": "The tests of strace hold", "statement": "The tests of tests/test_strace.py succeed for every program that does what their code asks for: whatever else it does, and on every Linux architecture, strace.py -o FILE -- program leaves a file in which the regular expressions of the tests find, at the beginning of a line, the calls chdir, rename, link, symlink (or their at-variants on AArch64 and RISC-V), open or openat, socket, mmap and exit with the arguments and errors as they were; the directory found by test_getcwd is the one the kernel returned, even if it contains commas; the exit status of strace.py is the exit code of the program, or 128 plus the signal that killed it.", "quantifier": "all programs (sequences of system calls and signals), memory contents, architectures, error tables", "why_tests_cant": "The tests of the project describe what strace.py promises, but run it on one program on one machine; here they hold for all of them.", "anchors": ["tests/test_strace.py:18-110", "strace.py:100-285", "ptrace/syscall/ptrace_syscall.py:42-156"]}
{"id": "C138", "title": "The tests of gdb.py hold, and its helper returns what a command writes", "statement": "In a session of gdb.py in which one command is typed and the input is closed, the output is the prompt, what the command writes, the prompt, an end of line, what leaving writes and 'Quit gdb.'; run_command() of tests/test_gdb.py returns what the command has written without the spaces at the end (and, as corner cases, the prompt and the last message after a command that writes nothing, and everything but the last character without a prompt), and fails on a traceback or another exit status; the tests proc, print, where, regs, backtrace, maps and dbginfo succeed on every session whose process can be inspected.", "quantifier": "for all platforms, environments (debugger, process, terminal), command outputs, mappings, memory contents, files in /proc and exit statuses", "why_tests_cant": "The tests are what the authors check: the theorems say for which processes they succeed, and what they would not notice.", "anchors": ["tests/test_gdb.py:13-34", "tests/test_gdb.py:36-74", "gdb.py:790-883"]}
{"id": "C139", "title": "Methods find the attributes of their object", "statement": "No constructor and no method of a class of the library raises AttributeError for an attribute of its own object: after the constructor, methods may be called in any order and may fail with exceptions, on every platform. The programs strace.py, gdb.py and examples/itrace.py find the attributes of the application in the constructor and in main(). The destructor of PtraceProcess finds its attributes even if the constructor has failed. The attributes and methods that docstrings list exist (except mnemonic and operands of Instruction).", "quantifier": "for all classes, values of the platform flags, sequences of method calls, branches taken and exceptions raised", "why_tests_cant": "A missing attribute is found only when the method that reads it runs on the platform where it is missing; the destructor swallows PtraceError only, so a missing attribute would be printed as an ignored exception.", "anchors": ["ptrace/debugger/process.py:160-777", "ptrace/debugger/debugger.py:64-293", "ptrace/debugger/syscall_state.py:5-48", "ptrace/syscall/ptrace_syscall.py:53-156", "ptrace/func_arg.py:6-105", "ptrace/disasm.py:31-54", "strace.py:18-285", "gdb.py:125-883"]}
{"id": "C140", "title": "Calls give functions the arguments they take", "statement": "Python gives the arguments of a call to the parameters of a function by position, then by keyword, then by default; it raises TypeError exactly if there are too many positional arguments, a parameter gets two values or none, or a keyword is unknown. No call of a function, class or method of this project by the project itself raises this TypeError, whatever the values, the length of *lists and, for methods, the class of the object below the one that is expected, on all platforms (every alternative definition accepts the call). A method that replaces one of the parent class accepts all arguments that the method of the parent accepts.", "quantifier": "all signatures, values and numbers of arguments; all 690 calls of functions, classes and methods of the project within it; all classes below the class of the object", "why_tests_cant": "Python checks arguments only when a call is executed; calls on error paths and on other platforms are never executed by the tests.", "anchors": ["ptrace/**/*.py", "gdb.py", "strace.py", "runtests.py", "test_doc.py", "examples/*.py", "tests/*.py", "SYSCALL_PROTOTYPES.codegen.py"]}
{"id": "C141", "title": "Code finds the attributes of the other objects it reads", "statement": "Where the code reads an attribute of an object other than self (a process, a debugger, an event, a system call and its arguments, a breakpoint, a mapping, an instruction, ...), the objects of the expected class and of all classes derived from it have this attribute after their constructor and after any sequence of calls of their methods, on all platforms. The function of an argument has a process, either as a system call or because setupSocketCall() assigns it. Every option that a method of an application reads exists in each program (strace, gdb, itrace) that inherits the method, under the name that optparse derives; every option of a program is read; no two options share a name; runtests.py reads exactly its options.", "quantifier": "all reads of attributes of objects of classes of the project outside of their own methods; all flags of the platform; all sequences of method calls; all options of the four programs", "why_tests_cant": "An attribute that exists only in one of the event classes, or an option that exists only in one of the programs, raises AttributeError when the line is executed, often in an error path.", "anchors": ["ptrace/debugger/application.py:17-91", "ptrace/debugger/process.py", "ptrace/debugger/debugger.py", "ptrace/debugger/ptrace_signal.py", "ptrace/syscall/*.py", "strace.py:26-285", "gdb.py:144-887", "runtests.py:44-72", "runtests.py:199-276", "examples/itrace.py:21-49"]}
{"id": "C142", "title": "The uptime is exact", "statement": "getUptime() returns exactly the time since the start that /proc/uptime shows (hundredths of a second), as a timedelta, for the first 2^32 seconds, although the text is converted to a floating point number and its fraction is multiplied and rounded again: a floating point number has a relative error of at most 2^-53, and timedelta() rounds every such number to the right microsecond. A file that cannot be opened gives ProcError; errors of read() are not changed.", "quantifier": "all uptimes below 2^32 seconds and all idle times; all fractions (rounding to binary64); all results of open() and read()", "why_tests_cant": "Rounding twice can give a result that differs by a microsecond, and with it times that do not agree with those of the kernel.", "anchors": ["ptrace/linux_proc.py:23-40", "ptrace/linux_proc.py:216-223"]}
{"id": "C143", "title": "Format strings take the arguments they are given", "statement": "s % args raises nothing exactly when the arguments are as many as the conversions (and stars) of s ask for and each is of a right kind (any value for %s, %r and %a, an int for %x, a number for %d, ...). All 230 formats of the project (library, programs, examples, tests) have as many conversions as arguments, whatever the values are; no other number works, and where a single value is written without a tuple, a tuple of another length than one would be an error. The format that dumpRegs() makes for the widest name works for all widths. The format of the environment variables ('%s=%r' % tuple(item.split('=', 1))) works exactly for those with an equal sign.", "quantifier": "all format strings made of text and conversions without keys, all argument lists; all 230 formats of the project with all values; all widths; all environment strings", "why_tests_cant": "Most of the formats are in messages of errors, which are seldom printed: a wrong one replaces the message, and the error that it reports, by a TypeError.", "anchors": ["ptrace/tools.py:8-30", "ptrace/process_tools.py:50-70", "ptrace/debugger/signal_reason.py:119-145", "ptrace/debugger/process.py:200-230", "strace.py:140-155", "gdb.py:100-115"]}
{"id": "C144", "title": "Opened files are closed", "statement": "readProc(), readProcessProc() and readProcessMappings() leave no file open and close no other, whatever open() and reading do and whatever is in the file. getSystemBoot() leaves /proc/stat open exactly when reading fails or the line of the boot time has no valid number (never with a file as Linux writes it); dumpProcessInfo() leaves /proc/pid/status open exactly when reading fails or an identifier is not a number; gcore closes its files only when it succeeds, and with Python 3 always leaves /proc/pid/maps open. A process object opens /proc/pid/mem at most once; it is open exactly from the first read that could open it to the end of the process, is never opened again, and is not closed by detach().", "quantifier": "all results of open(), read() and iteration, all file contents, all sequences of reads, detach and end of a process object", "why_tests_cant": "A debugger runs for a long time and works on many processes: files left open use up its descriptors, and an open /proc/pid/mem keeps the memory of a process accessible.", "anchors": ["ptrace/linux_proc.py:23-53", "ptrace/linux_proc.py:226-245", "ptrace/debugger/memory_mapping.py:104-139", "ptrace/process_tools.py:81-103", "ptrace/debugger/process.py:291-307", "ptrace/debugger/process.py:554-587", "gdb.py:409-427"]}
{"id": "C145", "title": "The source distribution is complete", "statement": "Every file below ptrace/ is a module of a package that setup.py lists, each listed package has its __init__.py and its parent is listed. With MANIFEST.in, read as distutils does, the source distribution has exactly the files of the repository without .gitignore and the workflows of GitHub, so that setup.py and setup_cptrace.py find in it all that they read; seven patterns of MANIFEST.in match no file. A pattern matches whole names, its stars match no slash; every word of an include line counts. The version text can be split into its numbers again and is that of the documentation. setup_cptrace.py removes the first --setuptools from its arguments and nothing else.", "quantifier": "all patterns and names, all lines with any words and comments, all lists of packages, files and arguments; all files of the repository", "why_tests_cant": "Tests run in the repository, where every file is present; a file that is missing in the distribution is found by its users.", "anchors": ["setup.py:8-9", "setup.py:40-42", "setup.py:55-64", "MANIFEST.in:1-29", "setup_cptrace.py:5-34", "ptrace/version.py:1-5", "doc/conf.py:44"]}
