(** * SdistCode: MANIFEST.in, the lists of setup.py and the names of the files of the repository. *)
From Coq Require Import ZArith List Ascii String.
From Verif Require Import PyBase.
Import ListNotations.

(** MANIFEST.in 1-29: its lines *)
Definition manifest : list text :=
  [(* 1 *) T "include AUTHORS";
   (* 2 *) T "include COPYING";
   (* 3 *) T "include ChangeLog";
   (* 4 *) T "include INSTALL";
   (* 5 *) T "include MANIFEST.in";
   (* 6 *) T "include README.cptrace";
   (* 7 *) T "include TODO";
   (* 8 *) T "include tox.ini";
   (* 9 *) T "include SYSCALL_PROTOTYPES.codegen.py";
   (* 10 *) T "";
   (* 11 *) T "include cptrace/Makefile";
   (* 12 *) T "include cptrace/cptrace.c";
   (* 13 *) T "include cptrace/version.py";
   (* 14 *) T "";
   (* 15 *) T "include doc/*.rst doc/conf.py doc/make.bat doc/Makefile";
   (* 16 *) T "";
   (* 17 *) T "include examples/itrace.py";
   (* 18 *) T "include examples/simple_dbg.py";
   (* 19 *) T "include pyflakes.sh";
   (* 20 *) T "include python3.0.patch";
   (* 21 *) T "include setup_cptrace.py";
   (* 22 *) T "";
   (* 23 *) T "# Tests";
   (* 24 *) T "include runtests.py";
   (* 25 *) T "include test_doc.py";
   (* 26 *) T "include tests/test_*.py";
   (* 27 *) T "include tests/crash/*.c";
   (* 28 *) T "include tests/crash/BSDmakefile";
   (* 29 *) T "include tests/crash/Makefile"].

(** setup.py 40, 42: MODULES, SCRIPTS *)
Definition modules : list text := [T "ptrace"; T "ptrace.binding"; T "ptrace.syscall"; T "ptrace.syscall.linux"; T "ptrace.debugger"].
Definition scripts : list text := [T "strace.py"; T "gdb.py"].
(** ptrace/version.py 2: VERSION *)
Definition version : list Z := [0; 9; 10]%Z.
(** doc/conf.py 44 *)
Definition doc_release : text := T "0.9.10".
(** The files that setup.py reads (55, 58) and runs: README.rst, ptrace/version.py; setup_cptrace.py 5, 18, 33-34 *)
Definition setup_reads : list text := [T "setup.py"; T "README.rst"; T "ptrace/version.py"].
Definition setup_cptrace_reads : list text := [T "setup_cptrace.py"; T "doc/cptrace.rst"; T "cptrace/version.py"; T "cptrace/cptrace.c"].

(** The files of the repository *)
Definition tree : list text :=
  [T ".github/workflows/build.yml";
   T ".github/workflows/setup_test.yml";
   T ".gitignore";
   T "COPYING";
   T "MANIFEST.in";
   T "README.rst";
   T "SYSCALL_PROTOTYPES.codegen.py";
   T "cptrace/Makefile";
   T "cptrace/cptrace.c";
   T "cptrace/version.py";
   T "doc/Makefile";
   T "doc/authors.rst";
   T "doc/changelog.rst";
   T "doc/conf.py";
   T "doc/cptrace.rst";
   T "doc/gdb.rst";
   T "doc/index.rst";
   T "doc/install.rst";
   T "doc/make.bat";
   T "doc/process_events.rst";
   T "doc/ptrace_signal.rst";
   T "doc/syscall.rst";
   T "doc/todo.rst";
   T "doc/usage.rst";
   T "examples/itrace.py";
   T "examples/simple_dbg.py";
   T "gdb.py";
   T "ptrace/__init__.py";
   T "ptrace/binding/__init__.py";
   T "ptrace/binding/cpu.py";
   T "ptrace/binding/freebsd_struct.py";
   T "ptrace/binding/func.py";
   T "ptrace/binding/linux_struct.py";
   T "ptrace/binding/openbsd_struct.py";
   T "ptrace/cpu_info.py";
   T "ptrace/ctypes_libc.py";
   T "ptrace/ctypes_tools.py";
   T "ptrace/debugger/__init__.py";
   T "ptrace/debugger/application.py";
   T "ptrace/debugger/backtrace.py";
   T "ptrace/debugger/breakpoint.py";
   T "ptrace/debugger/child.py";
   T "ptrace/debugger/debugger.py";
   T "ptrace/debugger/memory_mapping.py";
   T "ptrace/debugger/parse_expr.py";
   T "ptrace/debugger/process.py";
   T "ptrace/debugger/process_error.py";
   T "ptrace/debugger/process_event.py";
   T "ptrace/debugger/ptrace_signal.py";
   T "ptrace/debugger/signal_reason.py";
   T "ptrace/debugger/syscall_state.py";
   T "ptrace/disasm.py";
   T "ptrace/error.py";
   T "ptrace/func_arg.py";
   T "ptrace/func_call.py";
   T "ptrace/linux_proc.py";
   T "ptrace/logging_tools.py";
   T "ptrace/mockup.py";
   T "ptrace/os_tools.py";
   T "ptrace/process_tools.py";
   T "ptrace/profiler.py";
   T "ptrace/pydistorm.py";
   T "ptrace/signames.py";
   T "ptrace/syscall/__init__.py";
   T "ptrace/syscall/freebsd_constants.py";
   T "ptrace/syscall/freebsd_syscall.py";
   T "ptrace/syscall/linux/__init__.py";
   T "ptrace/syscall/linux/aarch64.py";
   T "ptrace/syscall/linux/i386.py";
   T "ptrace/syscall/linux/powerpc32.py";
   T "ptrace/syscall/linux/powerpc64.py";
   T "ptrace/syscall/linux/riscv32.py";
   T "ptrace/syscall/linux/riscv64.py";
   T "ptrace/syscall/linux/x86_64.py";
   T "ptrace/syscall/linux_constants.py";
   T "ptrace/syscall/linux_struct.py";
   T "ptrace/syscall/names.py";
   T "ptrace/syscall/posix_arg.py";
   T "ptrace/syscall/posix_constants.py";
   T "ptrace/syscall/prototypes.py";
   T "ptrace/syscall/ptrace_syscall.py";
   T "ptrace/syscall/socketcall.py";
   T "ptrace/syscall/socketcall_constants.py";
   T "ptrace/syscall/socketcall_struct.py";
   T "ptrace/syscall/syscall_argument.py";
   T "ptrace/terminal.py";
   T "ptrace/tools.py";
   T "ptrace/version.py";
   T "runtests.py";
   T "setup.cfg";
   T "setup.py";
   T "setup_cptrace.py";
   T "strace.py";
   T "test_doc.py";
   T "tests/crash/BSDmakefile";
   T "tests/crash/Makefile";
   T "tests/crash/abort.c";
   T "tests/crash/call_null.c";
   T "tests/crash/div_zero.c";
   T "tests/crash/execve.c";
   T "tests/crash/fork.c";
   T "tests/crash/invalid_read.c";
   T "tests/crash/invalid_write.c";
   T "tests/crash/pthread.c";
   T "tests/crash/socket_ipv4_tcp.c";
   T "tests/crash/stack_overflow.c";
   T "tests/test_gdb.py";
   T "tests/test_strace.py";
   T "tox.ini"].
