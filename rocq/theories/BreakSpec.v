(** * BreakSpec: what breakpoints should do. *)
From Coq Require Import ZArith List Bool.
From Verif Require Import PyBase Platform CallModel MemModel MemSpec StructModel RegModel BreakModel.
Import ListNotations.
Open Scope Z_scope.

(** [bp] is an entry of the breakpoint dictionary. *)
Definition live (st : bstate) (bp : bpoint) : Prop :=
  exists addr id, In (addr, id) (b_dict st) /\ nth_error (b_objs st) id = Some bp.
Definition covers (bp : bpoint) (x : Z) : Prop := bp_address bp <= x < bp_address bp + bp_size bp.
Definition apart (a n a' n' : Z) : Prop := a + n <= a' \/ a' + n' <= a.

(** The range can be read and written as long as the process lives. *)
Definition accessible (E : penv) (s : pstate) (a n : Z) : Prop :=
  0 < n /\ in_space E a n /\ words_mapped (e_p E) (s_mem s) a n /\ words_pokable (e_p E) (s_mem s) a n /\
  file_usable s (a + n + word_size (e_p E)).

(** What a user does: create a breakpoint or remove the one with a given number. *)
Inductive action : Type :=
| Create (address : Z) (size : option Z)
| Remove (id : nat).
Definition act (E : penv) (K : rkernel) (a : action) (st : bstate) : bstate :=
  match a with
  | Create address size => fst (createBreakpoint E address size st)
  | Remove id => fst (desinstall E K id false st)
  end.
(** No breakpoint is created over part of a live one; created ranges are accessible. *)
Fixpoint well_behaved (E : penv) (K : rkernel) (st : bstate) (l : list action) : Prop :=
  match l with
  | [] => True
  | a :: l =>
      match a with
      | Create address size =>
          let n := break_size E size in
          accessible E (b_mem st) address n /\
          (forall bp, live st bp -> covers bp address \/ apart address n (bp_address bp) (bp_size bp))
      | Remove _ => True
      end /\ well_behaved E K (act E K a st) l
  end.
(** Breakpoints may overlap, but what is created last is removed first: [bracketed n l m] if the breakpoints of [l] are numbered from
    [n] to [m], each is removed once, after all those that were created while it was there. *)
Inductive bracketed : nat -> list action -> nat -> Prop :=
| BNone : forall n, bracketed n [] n
| BPair : forall n a size l m l' m', bracketed (S n) l m -> bracketed m l' m' -> bracketed n (Create a size :: l ++ Remove n :: l') m'.
(** Each created range is accessible and its address is not covered by a live breakpoint (createBreakpoint refuses it otherwise). *)
Fixpoint possible (E : penv) (K : rkernel) (st : bstate) (l : list action) : Prop :=
  match l with
  | [] => True
  | a :: l =>
      match a with
      | Create address size => accessible E (b_mem st) address (break_size E size) /\ forall bp, live st bp -> ~ covers bp address
      | Remove _ => True
      end /\ possible E K (act E K a st) l
  end.
Definition no_breakpoints (st : bstate) : Prop := b_objs st = [] /\ b_dict st = [].
(** Linux, the ctypes binding and a truthful kernel. *)
Definition plain (E : penv) : Prop :=
  p_os (e_p E) = Linux /\ e_be E = Ctypes /\ good_pid E /\ faithful E /\ never_fails E /\ open_ok E.
(** Registry and objects agree (holds initially and is preserved, see BreakProps). *)
Definition consistent (st : bstate) : Prop :=
  NoDup (map fst (b_dict st)) /\
  (forall a id, In (a, id) (b_dict st) ->
     exists bp, nth_error (b_objs st) id = Some bp /\ bp_address bp = a /\ bp_installed bp = true).

(** The instruction that raises SIGTRAP, as the bytes at the breakpoint address: int3 on Intel,
    "tw" with the word 0x0cc00000 in memory order on PowerPC, an undefined/BRK/EBREAK instruction on the others
    (ARM: the permanently undefined 0xe7f001f0 used by Linux; AArch64: BRK #0; RISC-V: EBREAK). *)
Definition trap_instruction (c : cpu) (bigendian : bool) : option (list Z) :=
  let order l := if bigendian then rev l else l in
  match c with
  | I386 | X86_64 => Some [0xcc]
  | PPC32 | PPC64 => Some (order [0; 0; 0xc0; 0x0c])
  | ARM32 => Some (order [0xf0; 0x01; 0xf0; 0xe7])
  | AARCH64 => Some [0x00; 0x00; 0x20; 0xd4]
  | RISCV32 | RISCV64 => Some [0x73; 0x00; 0x10; 0x00]
  | OtherCPU => None
  end.
