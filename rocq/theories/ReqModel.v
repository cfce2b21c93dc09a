(** * ReqModel: the wrappers of ptrace/binding/func.py that give a structure to the kernel. *)
From Coq Require Import ZArith List Ascii String Bool.
From Verif Require Import PyBase Platform IntModel CallModel ReqSpec.
Import ListNotations.
Open Scope Z_scope.

(** ptrace/binding/func.py 56-111.  [None]: the name is not defined on that system. *)
Definition PTRACE_GETREGS (p : platform) : option Z :=
  match p_os p with
  | OpenBSD => Some 33
  | FreeBSD | MacOSX => if is_powerpc (p_cpu p) then None else Some 33
  | Linux => match p_cpu p with AARCH64 | RISCV32 | RISCV64 => None | _ => Some 12 end
  end.
Definition PTRACE_SETREGS (p : platform) : option Z :=
  match p_os p with
  | OpenBSD | FreeBSD | MacOSX => Some 34
  | Linux => match p_cpu p with AARCH64 | RISCV32 | RISCV64 => None | _ => Some 13 end
  end.
Definition PTRACE_IO (p : platform) : option Z :=
  match p_os p with OpenBSD => Some 11 | FreeBSD | MacOSX => Some 12 | Linux => None end.
Definition PTRACE_GETREGSET : Z := 0x4204.
Definition PTRACE_SETREGSET : Z := 0x4205.
Definition NT_PRSTATUS : Z := 1.
Definition PTRACE_GETFPREGS : Z := 14.
Definition PTRACE_SETFPREGS : Z := 15.
Definition PTRACE_GETFPXREGS : Z := 18.
Definition PTRACE_SETFPXREGS : Z := 19.
Definition PTRACE_GETSIGINFO : Z := 0x4202.
Definition PTRACE_SETSIGINFO : Z := 0x4203.

(** The structures are represented by their addresses: [buf] is addressof() of the structure, [iov] of the iovec_struct
    that points to it.  A function that is not defined on a system is a NameError for its callers. *)
Section Structures.
  Context (be : backend) (p : platform) (clears : bool) (errno0 : Z) (kernel : request -> kernel_result).
  Let ptrace' := ptrace be p clears errno0 kernel.
  Definition undefined : call unit := ([], Err ENameError).
  Definition linux_only (c : call unit) : call unit := if running_linux p then c else undefined.
  (** ptrace/binding/func.py 235-238 *)
  Definition ptrace_geteventmsg (pid buf : Z) : call unit := linux_only (ignore (ptrace' PTRACE_GETEVENTMSG pid 0 buf false)).
  (** ptrace/binding/func.py 247-253 *)
  Definition ptrace_getsiginfo (pid buf : Z) : call unit := linux_only (ignore (ptrace' PTRACE_GETSIGINFO pid 0 buf false)).
  Definition ptrace_setsiginfo (pid buf : Z) : call unit := linux_only (ignore (ptrace' PTRACE_SETSIGINFO pid 0 buf false)).
  (** ptrace/binding/func.py 255-261 *)
  Definition ptrace_getfpregs (pid buf : Z) : call unit := linux_only (ignore (ptrace' PTRACE_GETFPREGS pid 0 buf false)).
  Definition ptrace_setfpregs (pid buf : Z) : call unit := linux_only (ignore (ptrace' PTRACE_SETFPREGS pid 0 buf false)).
  (** ptrace/binding/func.py 263-270 *)
  Definition ptrace_getfpxregs (pid buf : Z) : call unit :=
    linux_only (if p_64bits p then undefined else ignore (ptrace' PTRACE_GETFPXREGS pid 0 buf false)).
  Definition ptrace_setfpxregs (pid buf : Z) : call unit :=
    linux_only (if p_64bits p then undefined else ignore (ptrace' PTRACE_SETFPXREGS pid 0 buf false)).
  (** ptrace/binding/func.py 272-285, 309-313 *)
  Definition ptrace_getregs (pid buf iov : Z) : call unit :=
    match PTRACE_GETREGS p with
    | Some n => if running_linux p then ignore (ptrace' n pid 0 buf false) else ignore (ptrace' n pid buf 0 false)
    | None => linux_only (ignore (ptrace' PTRACE_GETREGSET pid NT_PRSTATUS iov false))
    end.
  (** ptrace/binding/func.py 287-296, 315-316 *)
  Definition ptrace_setregs (pid buf iov : Z) : call unit :=
    match PTRACE_SETREGS p with
    | Some n => if running_linux p then ignore (ptrace' n pid 0 buf false) else ignore (ptrace' n pid buf 0 false)
    | None => linux_only (ignore (ptrace' PTRACE_SETREGSET pid NT_PRSTATUS iov false))
    end.
  (** ptrace/binding/func.py 322-324 *)
  Definition ptrace_io (pid desc : Z) : call unit :=
    match PTRACE_IO p with Some n => ignore (ptrace' n pid desc 0 false) | None => undefined end.
End Structures.

Section Perform.
  Context (be : backend) (p : platform) (clears : bool) (errno0 : Z) (kernel : request -> kernel_result).
  Definition value_of (c : call unit) : call Z := (fst c, match snd c with Ok tt => Ok 0 | Err e => Err e end).
  (** The wrapper of each operation *)
  Definition perform (o : operation) (pid : Z) : call Z :=
    match o with
    | TraceMe => value_of (ptrace_traceme be p clears errno0 kernel)
    | Attach => value_of (ptrace_attach be p clears errno0 kernel pid)
    | Detach s => value_of (ptrace_detach be p clears errno0 kernel pid s)
    | PeekText a => ptrace_peektext be p clears errno0 kernel pid a
    | PeekData a => ptrace_peekdata be p clears errno0 kernel pid a
    | PeekUser a => ptrace_peekuser be p clears errno0 kernel pid a
    | PokeText a w => value_of (ptrace_poketext be p clears errno0 kernel pid a w)
    | PokeData a w => value_of (ptrace_pokedata be p clears errno0 kernel pid a w)
    | PokeUser a w => value_of (ptrace_pokeuser be p clears errno0 kernel pid a w)
    | Kill => value_of (ptrace_kill be p clears errno0 kernel pid)
    | SetOptions n => if has_ptrace_events p then value_of (ptrace_setoptions be p clears errno0 kernel pid n) else ([], Err ENameError)
    | GetEventMsg b => value_of (ptrace_geteventmsg be p clears errno0 kernel pid b)
    | ContinueSyscall s => value_of (ptrace_syscall be p clears errno0 kernel pid s)
    | Continue s => value_of (ptrace_cont be p clears errno0 kernel pid s)
    | SingleStep => value_of (ptrace_singlestep be p clears errno0 kernel pid)
    | GetSigInfo b => value_of (ptrace_getsiginfo be p clears errno0 kernel pid b)
    | SetSigInfo b => value_of (ptrace_setsiginfo be p clears errno0 kernel pid b)
    | GetFpRegs b => value_of (ptrace_getfpregs be p clears errno0 kernel pid b)
    | SetFpRegs b => value_of (ptrace_setfpregs be p clears errno0 kernel pid b)
    | GetFpxRegs b => value_of (ptrace_getfpxregs be p clears errno0 kernel pid b)
    | SetFpxRegs b => value_of (ptrace_setfpxregs be p clears errno0 kernel pid b)
    | GetRegs b v => value_of (ptrace_getregs be p clears errno0 kernel pid b v)
    | SetRegs b v => value_of (ptrace_setregs be p clears errno0 kernel pid b v)
    | Io d => value_of (ptrace_io be p clears errno0 kernel pid d)
    end.
End Perform.
