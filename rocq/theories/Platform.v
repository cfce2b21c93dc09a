(** * Platform: the constants of ptrace/cpu_info.py, ptrace/os_tools.py and the
    feature flags of ptrace/binding/func.py, as a record every model takes as
    an argument. *)
From Coq Require Import ZArith List Ascii String Bool.
From Verif Require Import PyBase.
Import ListNotations.
Open Scope Z_scope.

(** ptrace/cpu_info.py 35-64: the machine kind guessed from uname().  The eight
    flags are mutually exclusive, hence one inductive type. *)
Inductive cpu : Type :=
| PPC32 | PPC64 | I386 | X86_64 | ARM32 | AARCH64 | RISCV32 | RISCV64 | OtherCPU.

(** ptrace/os_tools.py 18-23 *)
Inductive os : Type := Linux | FreeBSD | OpenBSD | MacOSX.

Record platform : Type := Platform {
  p_os : os;
  p_cpu : cpu;
  p_bigendian : bool;    (* ptrace/cpu_info.py 25 : CPU_BIGENDIAN *)
  p_64bits : bool        (* ptrace/cpu_info.py 26 : CPU_64BITS *)
}.

(** ptrace/cpu_info.py 37-45: classification of uname()[4]. *)
Definition cpu_of_machine (machine : text) : cpu :=
  if text_eqb machine (T "ppc") then PPC32
  else if text_eqb machine (T "ppc64") || text_eqb machine (T "ppc64le") then PPC64
  else if text_eqb machine (T "i386") || text_eqb machine (T "i686") then I386
  else if text_eqb machine (T "x86_64") || text_eqb machine (T "amd64") then X86_64
  else if starts_with (T "arm") machine then ARM32
  else if text_eqb machine (T "aarch64") then AARCH64
  else if text_eqb machine (T "riscv32") then RISCV32
  else if text_eqb machine (T "riscv64") then RISCV64
  else OtherCPU.

(** ptrace/cpu_info.py 28-33: CPU_WORD_SIZE, CPU_MAX_UINT *)
Definition word_size (p : platform) : Z := if p_64bits p then 8 else 4.
Definition max_uint (p : platform) : Z :=
  if p_64bits p then 0xffffffffffffffff else 0xffffffff.

(** ptrace/cpu_info.py 66-69 *)
Definition is_intel (c : cpu) : bool := match c with I386 | X86_64 => true | _ => false end.
Definition is_powerpc (c : cpu) : bool := match c with PPC32 | PPC64 => true | _ => false end.
Definition is_arm (c : cpu) : bool := match c with ARM32 | AARCH64 => true | _ => false end.
Definition is_riscv (c : cpu) : bool := match c with RISCV32 | RISCV64 => true | _ => false end.

(** ptrace/os_tools.py 18-26 *)
Definition running_linux (p : platform) : bool := match p_os p with Linux => true | _ => false end.
Definition running_openbsd (p : platform) : bool := match p_os p with OpenBSD => true | _ => false end.
Definition running_bsd (p : platform) : bool := negb (running_linux p).
Definition has_proc (p : platform) : bool := running_linux p.

(** ptrace/binding/func.py 27-115: HAS_PTRACE_xxx *)
Definition has_ptrace_events (p : platform) : bool := running_linux p.
Definition has_ptrace_siginfo (p : platform) : bool := running_linux p.
Definition has_ptrace_io (p : platform) : bool := running_bsd p.
Definition has_ptrace_getregs (p : platform) : bool :=
  match p_os p with
  | OpenBSD => true
  | FreeBSD | MacOSX => negb (is_powerpc (p_cpu p))
  | Linux => negb (match p_cpu p with AARCH64 => true | c => is_riscv c end)
  end.
Definition has_ptrace_getregset (p : platform) : bool := running_linux p.
(** ptrace/binding/func.py 38, 115: THREAD_TRACE_FLAGS (__WALL) *)
Definition thread_trace_flags (p : platform) : Z := if running_linux p then 0x40000000 else 0.

(** A few concrete platforms for examples. *)
Definition linux_x86_64 : platform := Platform Linux X86_64 false true.
Definition linux_i386 : platform := Platform Linux I386 false false.
Definition linux_ppc32 : platform := Platform Linux PPC32 true false.
Definition linux_ppc64 : platform := Platform Linux PPC64 true true.
Definition linux_arm32 : platform := Platform Linux ARM32 false false.
Definition linux_aarch64 : platform := Platform Linux AARCH64 false true.
Definition freebsd_x86_64 : platform := Platform FreeBSD X86_64 false true.
Definition openbsd_i386 : platform := Platform OpenBSD I386 false false.
