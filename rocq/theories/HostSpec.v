(** * HostSpec: the vocabulary of the properties about the host. *)
From Coq Require Import ZArith List Ascii String Bool.
From Verif Require Import PyBase Platform HostModel.
Import ListNotations.
Open Scope Z_scope.

Definition cpu_eqb (a b : cpu) : bool :=
  match a, b with
  | PPC32, PPC32 | PPC64, PPC64 | I386, I386 | X86_64, X86_64 | ARM32, ARM32 | AARCH64, AARCH64 | RISCV32, RISCV32 | RISCV64, RISCV64 | OtherCPU, OtherCPU => true
  | _, _ => false
  end.
(** The flags say that the CPU is [c] *)
Definition says (f : cpu_flags) (c : cpu) : Prop :=
  f_ppc32 f = cpu_eqb c PPC32 /\ f_ppc64 f = cpu_eqb c PPC64 /\ f_i386 f = cpu_eqb c I386 /\ f_x86_64 f = cpu_eqb c X86_64 /\
  f_arm32 f = cpu_eqb c ARM32 /\ f_aarch64 f = cpu_eqb c AARCH64 /\ f_riscv32 f = cpu_eqb c RISCV32 /\ f_riscv64 f = cpu_eqb c RISCV64 /\
  f_intel f = is_intel c /\ f_powerpc f = is_powerpc c /\ f_arm f = is_arm c /\ f_riscv f = is_riscv c.
(** The number of true flags *)
Definition count_true (l : list bool) : nat := List.length (filter (fun b => b) l).
(** The system the flags say *)
Definition says_os (f : os_flags) (o : option os) : Prop :=
  o_linux f = (match o with Some Linux => true | _ => false end) /\ o_freebsd f = (match o with Some FreeBSD => true | _ => false end) /\
  o_openbsd f = (match o with Some OpenBSD => true | _ => false end) /\ o_macosx f = (match o with Some MacOSX => true | _ => false end) /\
  o_bsd f = (match o with Some Linux | None => false | _ => true end) /\ o_proc f = o_linux f /\ o_ptrace f = (match o with Some _ => true | None => false end).
(** The date shown by a clock of the zone at the time [t] *)
Definition local_date (zone : Z -> Z) (t : Z) : Z := t + zone t.
