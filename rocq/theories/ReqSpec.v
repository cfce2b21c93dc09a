(** * ReqSpec: the ptrace requests of the operating systems, from their <sys/ptrace.h> and manual pages. *)
From Coq Require Import ZArith List Bool.
From Verif Require Import PyBase Platform.
Import ListNotations.
Open Scope Z_scope.

(** What can be asked.  [buf]: the address of a structure of the debugger. *)
Inductive operation : Type :=
| TraceMe | Attach | Detach (signal : Z) | PeekText (address : Z) | PeekData (address : Z) | PeekUser (address : Z)
| PokeText (address word : Z) | PokeData (address word : Z) | PokeUser (address word : Z) | Kill | SetOptions (options : Z)
| GetEventMsg (buf : Z) | ContinueSyscall (signal : Z) | Continue (signal : Z) | SingleStep | GetSigInfo (buf : Z) | SetSigInfo (buf : Z)
| GetFpRegs (buf : Z) | SetFpRegs (buf : Z) | GetFpxRegs (buf : Z) | SetFpxRegs (buf : Z) | GetRegs (buf iov : Z) | SetRegs (buf iov : Z)
| Io (desc : Z).

(** Linux: <linux/ptrace.h>, <asm/ptrace-abi.h>.  (request, address, data) *)
Definition linux_request (c : cpu) (bits64 : bool) (o : operation) : option (Z * Z * Z) :=
  match o with
  | TraceMe => Some (0, 0, 0)
  | PeekText a => Some (1, a, 0)
  | PeekData a => Some (2, a, 0)
  | PeekUser a => Some (3, a, 0)
  | PokeText a w => Some (4, a, w)
  | PokeData a w => Some (5, a, w)
  | PokeUser a w => Some (6, a, w)
  | Continue s => Some (7, 0, s)
  | Kill => Some (8, 0, 0)
  | SingleStep => Some (9, 0, 0)
  | GetRegs b v => match c with AARCH64 | RISCV32 | RISCV64 => Some (0x4204, 1, v) | _ => Some (12, 0, b) end
  | SetRegs b v => match c with AARCH64 | RISCV32 | RISCV64 => Some (0x4205, 1, v) | _ => Some (13, 0, b) end
  | GetFpRegs b => Some (14, 0, b)
  | SetFpRegs b => Some (15, 0, b)
  | Attach => Some (16, 0, 0)
  | Detach s => Some (17, 0, s)
  | GetFpxRegs b => if bits64 then None else Some (18, 0, b)
  | SetFpxRegs b => if bits64 then None else Some (19, 0, b)
  | ContinueSyscall s => Some (24, 0, s)
  | SetOptions o => Some (0x4200, 0, o)
  | GetEventMsg b => Some (0x4201, 0, b)
  | GetSigInfo b => Some (0x4202, 0, b)
  | SetSigInfo b => Some (0x4203, 0, b)
  | Io _ => None
  end.
(** FreeBSD (and the requests it shares with Mac OS X) and OpenBSD: PT_READ_I 1, PT_READ_D 2, PT_WRITE_I 4, PT_WRITE_D 5, PT_CONTINUE 7, PT_KILL 8.  The
    address 1 means "where it stopped"; the structures are given as addresses, not as data. *)
Definition bsd_request (o : operation) : option (Z * Z * Z) :=
  match o with
  | TraceMe => Some (0, 0, 0)
  | PeekText a => Some (1, a, 0)
  | PeekData a => Some (2, a, 0)
  | PeekUser a => Some (3, a, 0)
  | PokeText a w => Some (4, a, w)
  | PokeData a w => Some (5, a, w)
  | PokeUser a w => Some (6, a, w)
  | Continue s => Some (7, 1, s)
  | Kill => Some (8, 0, 0)
  | _ => None
  end.
Definition freebsd_request (c : cpu) (o : operation) : option (Z * Z * Z) :=
  match o with
  | SingleStep => Some (9, 1, 0)
  | Attach => Some (10, 0, 0)
  | Detach s => Some (11, 0, s)
  | Io d => Some (12, d, 0)
  | ContinueSyscall s => Some (22, 1, s)
  | GetRegs b _ => match c with PPC32 | PPC64 => None | _ => Some (33, b, 0) end
  | SetRegs b _ => Some (34, b, 0)
  | o => bsd_request o
  end.
Definition openbsd_request (o : operation) : option (Z * Z * Z) :=
  match o with
  | Attach => Some (9, 0, 0)
  | Detach s => Some (10, 0, s)
  | Io d => Some (11, d, 0)
  | SingleStep => Some (32, 1, 0)
  | GetRegs b _ => Some (33, b, 0)
  | SetRegs b _ => Some (34, b, 0)
  | o => bsd_request o
  end.
Definition kernel_request (p : platform) (o : operation) : option (Z * Z * Z) :=
  match p_os p with
  | Linux => linux_request (p_cpu p) (p_64bits p) o
  | FreeBSD | MacOSX => freebsd_request (p_cpu p) o
  | OpenBSD => openbsd_request o
  end.
(** The address of a word that the operation reads or writes *)
Definition word_address (o : operation) : option Z :=
  match o with
  | PeekText a | PeekData a | PeekUser a | PokeText a _ | PokeData a _ | PokeUser a _ => Some a
  | _ => None
  end.
Definition reads_word (o : operation) : bool := match o with PeekText _ | PeekData _ | PeekUser _ => true | _ => false end.
Definition subject (o : operation) (pid : Z) : Z := match o with TraceMe => 0 | _ => pid end.
