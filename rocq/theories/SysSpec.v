(** * SysSpec: vocabulary for statements about system calls. *)
From Coq Require Import ZArith List Ascii String Bool.
From Verif Require Import PyBase Platform IntModel IntSpec RegModel TabModel TabSpec ArgModel ArgSpec DbgModel SysModel.
Import ListNotations.
Open Scope Z_scope.

(** ** The calling conventions of Linux (manual page syscall(2)), with the register names of the library *)
Definition abi_number (c : cpu) : option text :=
  match c with
  | I386 => Some (T "orig_eax") | X86_64 => Some (T "orig_rax") | ARM32 => Some (T "r7") | AARCH64 => Some (T "r8")
  | PPC32 | PPC64 => Some (T "gpr0") | RISCV32 | RISCV64 => Some (T "a7") | OtherCPU => None
  end.
Definition abi_arguments (c : cpu) : list text :=
  match c with
  | I386 => [T "ebx"; T "ecx"; T "edx"; T "esi"; T "edi"; T "ebp"]
  | X86_64 => [T "rdi"; T "rsi"; T "rdx"; T "r10"; T "r8"; T "r9"]
  | ARM32 | AARCH64 => [T "r0"; T "r1"; T "r2"; T "r3"; T "r4"; T "r5"]
  | PPC32 | PPC64 => [T "gpr3"; T "gpr4"; T "gpr5"; T "gpr6"; T "gpr7"; T "gpr8"]
  | RISCV32 | RISCV64 => [T "a0"; T "a1"; T "a2"; T "a3"; T "a4"; T "a5"]
  | OtherCPU => []
  end.
(** Value, type and name of the arguments *)
Definition params (f : func) : list (Z * option text * option text) := map (fun a => (a_value a, a_type a, a_name a)) (f_args f).
Definition typed (values : list Z) (formats : list (text * text)) : list (Z * option text * option text) :=
  map (fun x => (fst x, Some (fst (snd x)), Some (snd (snd x)))) (combine values formats).

(** ** Sequences of events (C34) *)
Inductive input : Type := IStop (st : stop) | IClear.
(** The number of stops since the last clear() *)
Definition since_clear (l : list input) : nat := fold_left (fun n i => match i with IStop _ => S n | IClear => O end) l O.
(** The same call, before and after *)
Definition same_call (c c' : syscall_call) : Prop :=
  c_number c' = c_number c /\ f_name (c_func c') = f_name (c_func c) /\ f_restype (c_func c') = f_restype (c_func c) /\
  params (c_func c') = params (c_func c) /\ c_instr_pointer c' = c_instr_pointer c.
Section Run.
  Context (p : platform) (ns : SigModel.namespace) (repr_fs : list byte -> text) (errorcode : list (Z * text)) (strerror : Z -> text).
  Context (K : dkernel) (ignore_exec_trap : bool) (ignore : option (syscall_call -> bool)) (opts : options) (fuel : nat) (id : nat).
  (** What the events return; nothing when one of them raises an exception *)
  Fixpoint run_inputs (l : list input) (s : sstate * dstate) : option ((sstate * dstate) * list (option syscall_call)) :=
    match l with
    | [] => Some (s, [])
    | IClear :: l => run_inputs l (cleared, snd s)
    | IStop st :: l =>
        match ss_event p ns repr_fs errorcode strerror K ignore_exec_trap ignore opts fuel id st s with
        | (s, Ret r) => match run_inputs l s with Some (s, rs) => Some (s, r :: rs) | None => None end
        | (_, Raise _) => None
        end
    end.
End Run.

(** ** Arguments after the call (C118) *)
(** The arguments whose data is not there any more when the call returns: the sets select() overwrites, what was in the memory
    that execve() replaced, and the arguments of clone() *)
Definition lost_arguments : list (text * nat) :=
  [(T "select", 1%nat); (T "select", 2%nat); (T "select", 3%nat); (T "execve", 0%nat); (T "execve", 1%nat); (T "execve", 2%nat);
   (T "clone", 0%nat); (T "clone", 1%nat)].
Definition is_pointer (a : arg) : Prop := exists base, a_type a = Some (base ++ T "*").
(** BSD: the registers of the number on the processors the library knows for it *)
Definition bsd_number (c : cpu) : option text := match c with I386 => Some (T "eax") | X86_64 => Some (T "rax") | _ => None end.
