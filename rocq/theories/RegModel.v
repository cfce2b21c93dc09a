(** * RegModel: CPU registers (ptrace/binding/cpu.py, the register structures of ptrace/binding/,
    and the register methods of ptrace/debugger/process.py). *)
From Coq Require Import ZArith List Ascii String Bool.
From Verif Require Import PyBase Platform IntModel StructModel.
Import ListNotations.
Open Scope Z_scope.

(** ** The register structures; [W] is sizeof(unsigned long) *)
(** ptrace/binding/linux_struct.py 24-70 *)
Definition ppc32_fields (W : Z) : fields :=
  [(T "gpr0", W); (T "gpr1", W); (T "gpr2", W); (T "gpr3", W); (T "gpr4", W); (T "gpr5", W); (T "gpr6",
   W); (T "gpr7", W); (T "gpr8", W); (T "gpr9", W); (T "gpr10", W); (T "gpr11", W); (T "gpr12", W); (T
   "gpr13", W); (T "gpr14", W); (T "gpr15", W); (T "gpr16", W); (T "gpr17", W); (T "gpr18", W); (T
   "gpr19", W); (T "gpr20", W); (T "gpr21", W); (T "gpr22", W); (T "gpr23", W); (T "gpr24", W); (T
   "gpr25", W); (T "gpr26", W); (T "gpr27", W); (T "gpr28", W); (T "gpr29", W); (T "gpr30", W); (T
   "gpr31", W); (T "nip", W); (T "msr", W); (T "orig_gpr3", W); (T "ctr", W); (T "link", W); (T "xer",
   W); (T "ccr", W); (T "mq", W); (T "trap", W); (T "dar", W); (T "dsisr", W); (T "result", W)].
(** ptrace/binding/linux_struct.py 71-117 *)
Definition ppc64_fields (W : Z) : fields :=
  [(T "gpr0", W); (T "gpr1", W); (T "gpr2", W); (T "gpr3", W); (T "gpr4", W); (T "gpr5", W); (T "gpr6",
   W); (T "gpr7", W); (T "gpr8", W); (T "gpr9", W); (T "gpr10", W); (T "gpr11", W); (T "gpr12", W); (T
   "gpr13", W); (T "gpr14", W); (T "gpr15", W); (T "gpr16", W); (T "gpr17", W); (T "gpr18", W); (T
   "gpr19", W); (T "gpr20", W); (T "gpr21", W); (T "gpr22", W); (T "gpr23", W); (T "gpr24", W); (T
   "gpr25", W); (T "gpr26", W); (T "gpr27", W); (T "gpr28", W); (T "gpr29", W); (T "gpr30", W); (T
   "gpr31", W); (T "nip", W); (T "msr", W); (T "orig_gpr3", W); (T "ctr", W); (T "link", W); (T "xer",
   W); (T "ccr", W); (T "softe", W); (T "trap", W); (T "dar", W); (T "dsisr", W); (T "result", W)].
(** ptrace/binding/linux_struct.py 126-160 *)
Definition riscv_fields (W : Z) : fields :=
  [(T "pc", W); (T "ra", W); (T "sp", W); (T "gp", W); (T "tp", W); (T "t0", W); (T "t1", W); (T "t2",
   W); (T "s0", W); (T "s1", W); (T "a0", W); (T "a1", W); (T "a2", W); (T "a3", W); (T "a4", W); (T
   "a5", W); (T "a6", W); (T "a7", W); (T "s2", W); (T "s3", W); (T "s4", W); (T "s5", W); (T "s6", W);
   (T "s7", W); (T "s8", W); (T "s9", W); (T "s10", W); (T "s11", W); (T "t3", W); (T "t4", W); (T
   "t5", W); (T "t6", W)].
(** ptrace/binding/linux_struct.py 161-190 *)
Definition linux_x86_64_fields (W : Z) : fields :=
  [(T "r15", W); (T "r14", W); (T "r13", W); (T "r12", W); (T "rbp", W); (T "rbx", W); (T "r11", W); (T
   "r10", W); (T "r9", W); (T "r8", W); (T "rax", W); (T "rcx", W); (T "rdx", W); (T "rsi", W); (T
   "rdi", W); (T "orig_rax", W); (T "rip", W); (T "cs", W); (T "eflags", W); (T "rsp", W); (T "ss", W);
   (T "fs_base", W); (T "gs_base", W); (T "ds", W); (T "es", W); (T "fs", W); (T "gs", W)].
(** ptrace/binding/linux_struct.py 191-216 *)
Definition linux_i386_fields (W : Z) : fields :=
  [(T "ebx", W); (T "ecx", W); (T "edx", W); (T "esi", W); (T "edi", W); (T "ebp", W); (T "eax", W); (T
   "ds", 2); (T "__ds", 2); (T "es", 2); (T "__es", 2); (T "fs", 2); (T "__fs", 2); (T "gs", 2); (T
   "__gs", 2); (T "orig_eax", W); (T "eip", W); (T "cs", 2); (T "__cs", 2); (T "eflags", W); (T "esp",
   W); (T "ss", 2); (T "__ss", 2)].
(** ptrace/binding/freebsd_struct.py 12-43 *)
Definition freebsd_x86_64_fields (W : Z) : fields :=
  [(T "r15", W); (T "r14", W); (T "r13", W); (T "r12", W); (T "r11", W); (T "r10", W); (T "r9", W); (T
   "r8", W); (T "rdi", W); (T "rsi", W); (T "rbp", W); (T "rbx", W); (T "rdx", W); (T "rcx", W); (T
   "rax", W); (T "trapno", 4); (T "fs", 2); (T "gs", 2); (T "err", 4); (T "es", 2); (T "ds", 2); (T
   "rip", W); (T "cs", W); (T "rflags", W); (T "rsp", W); (T "ss", W)].
(** ptrace/binding/freebsd_struct.py 44-66 *)
Definition freebsd_i386_fields (W : Z) : fields :=
  [(T "fs", 4); (T "es", 4); (T "ds", 4); (T "edi", 4); (T "esi", 4); (T "ebp", 4); (T "isp", 4); (T
   "ebx", 4); (T "edx", 4); (T "ecx", 4); (T "eax", 4); (T "trapno", 4); (T "err", 4); (T "eip", 4); (T
   "cs", 4); (T "eflags", 4); (T "esp", 4); (T "ss", 4); (T "gs", 4)].
(** ptrace/binding/openbsd_struct.py 14-32 *)
Definition openbsd_fields (W : Z) : fields :=
  [(T "eax", 4); (T "ecx", 4); (T "edx", 4); (T "ebx", 4); (T "esp", 4); (T "ebp", 4); (T "esi", 4); (T
   "edi", 4); (T "eip", 4); (T "eflags", 4); (T "cs", 4); (T "ss", 4); (T "ds", 4); (T "es", 4); (T
   "fs", 4); (T "gs", 4)].
(** ptrace/binding/linux_struct.py 118-119 *)
Definition arm32_fields (W : Z) : fields := map (fun i => (T "r" ++ str_int i, W)) (zrange 18).
(** ptrace/binding/linux_struct.py 120-125 *)
Definition aarch64_fields (W : Z) : fields :=
  map (fun i => (T "r" ++ str_int i, W)) (zrange 31) ++ [(T "sp", W); (T "pc", W); (T "pstate", W)].

(** ptrace/binding/func.py 8-24: the choice of ptrace_registers_t *)
Definition register_fields (p : platform) : fields :=
  let W := word_size p in
  match p_os p with
  | OpenBSD => openbsd_fields W
  | FreeBSD | MacOSX => match p_cpu p with X86_64 => freebsd_x86_64_fields W | _ => freebsd_i386_fields W end
  | Linux =>
      match p_cpu p with
      | PPC32 => ppc32_fields W
      | PPC64 => ppc64_fields W
      | ARM32 => arm32_fields W
      | AARCH64 => aarch64_fields W
      | RISCV32 | RISCV64 => riscv_fields W
      | _ => if p_64bits p then linux_x86_64_fields W else linux_i386_fields W
      end
  end.
(** ptrace/binding/func.py 25 *)
Definition REGISTER_NAMES (p : platform) : list text := map fst (register_fields p).
Definition name_in (name : text) (l : list text) : bool := existsb (text_eqb name) l.

(** ** ptrace/binding/cpu.py 4-47 *)
Definition CPU_INSTR_POINTER (p : platform) : option text :=
  match p_cpu p with
  | PPC32 | PPC64 => Some (T "nip")
  | ARM32 => Some (T "r15")
  | AARCH64 | RISCV32 | RISCV64 => Some (T "pc")
  | X86_64 => Some (T "rip")
  | I386 => Some (T "eip")
  | OtherCPU => None
  end.
Definition CPU_STACK_POINTER (p : platform) : option text :=
  match p_cpu p with
  | PPC32 | PPC64 => Some (T "gpr1")
  | ARM32 => Some (T "r14")
  | AARCH64 | RISCV32 | RISCV64 => Some (T "sp")
  | X86_64 => Some (T "rsp")
  | I386 => Some (T "esp")
  | OtherCPU => None
  end.
Definition CPU_FRAME_POINTER (p : platform) : option text :=
  match p_cpu p with
  | ARM32 => Some (T "r11")
  | AARCH64 => Some (T "r29")
  | RISCV32 | RISCV64 => Some (T "s0")
  | X86_64 => Some (T "rbp")
  | I386 => Some (T "ebp")
  | _ => None
  end.

(** ptrace/binding/cpu.py 29-47 (X86_64), 52-65 (I386), 67-79 (both): main register, shift, mask *)
Definition sub_registers : Type := list (text * (text * Z * option Z)).
Definition flag_registers : sub_registers :=
  [(T "cf", (T "eflags", 0, Some 1)); (T "pf", (T "eflags", 2, Some 1)); (T "af", (T "eflags", 4, Some 1));
   (T "zf", (T "eflags", 6, Some 1)); (T "sf", (T "eflags", 7, Some 1)); (T "tf", (T "eflags", 8, Some 1));
   (T "if", (T "eflags", 9, Some 1)); (T "df", (T "eflags", 10, Some 1)); (T "of", (T "eflags", 11, Some 1));
   (T "iopl", (T "eflags", 12, Some 2))].
Definition CPU_SUB_REGISTERS (p : platform) : sub_registers :=
  match p_cpu p with
  | X86_64 =>
      [(T "al", (T "rax", 0, Some 0xff)); (T "bl", (T "rbx", 0, Some 0xff));
       (T "cl", (T "rcx", 0, Some 0xff)); (T "dl", (T "rdx", 0, Some 0xff));
       (T "ah", (T "rax", 8, Some 0xff)); (T "bh", (T "rbx", 8, Some 0xff));
       (T "ch", (T "rcx", 8, Some 0xff)); (T "dh", (T "rdx", 8, Some 0xff));
       (T "ax", (T "rax", 0, Some 0xffff)); (T "bx", (T "rbx", 0, Some 0xffff));
       (T "cx", (T "rcx", 0, Some 0xffff)); (T "dx", (T "rdx", 0, Some 0xffff));
       (T "eax", (T "rax", 32, None)); (T "ebx", (T "rbx", 32, None));
       (T "ecx", (T "rcx", 32, None)); (T "edx", (T "rdx", 32, None))] ++ flag_registers
  | I386 =>
      [(T "al", (T "eax", 0, Some 0xff)); (T "bl", (T "ebx", 0, Some 0xff));
       (T "cl", (T "ecx", 0, Some 0xff)); (T "dl", (T "edx", 0, Some 0xff));
       (T "ah", (T "eax", 8, Some 0xff)); (T "bh", (T "ebx", 8, Some 0xff));
       (T "ch", (T "ecx", 8, Some 0xff)); (T "dh", (T "edx", 8, Some 0xff));
       (T "ax", (T "eax", 0, Some 0xffff)); (T "bx", (T "ebx", 0, Some 0xffff));
       (T "cx", (T "ecx", 0, Some 0xffff)); (T "dx", (T "edx", 0, Some 0xffff))] ++ flag_registers
  | _ => []
  end.

(** ** The process as far as registers are concerned *)
Inductive reg_call : Type := GetRegs | SetRegs (regs : list byte) | PeekUser (offset : Z).
(** The kernel: errno of PTRACE_GETREGS / of PTRACE_SETREGS for a given structure ([None] = success),
    answers to PTRACE_PEEKUSER. *)
Record rkernel : Type := RKernel {
  rk_get : option Z;
  rk_set : list byte -> option Z;
  rk_peekuser : Z -> res Z
}.
(** The saved registers of the stopped process (the bytes of a ptrace_registers_t) and the ptrace
    requests made so far (latest first). *)
Record rstate : Type := RState { r_regs : list byte; r_calls : list reg_call }.
Definition R (A : Type) : Type := rstate -> rstate * res A.
Definition rret {A} (x : A) : R A := fun s => (s, Ok x).
Definition rerr {A} (e : exn) : R A := fun s => (s, Err e).
Definition rlift {A} (x : res A) : R A := fun s => (s, x).
Definition rbind {A B} (m : R A) (f : A -> R B) : R B :=
  fun s => match m s with (s, Ok a) => f a s | (s, Err e) => (s, Err e) end.
Notation "x <- m ;; f" := (rbind m (fun x => f)) (at level 61, m at next level, right associativity).
Definition rnote (c : reg_call) : R unit := fun s => (RState (r_regs s) (c :: r_calls s), Ok tt).

Section Process.
  Context (K : rkernel) (p : platform).
  Let fs := register_fields p.

  (** ptrace/binding/func.py 272-285 and 309-313: ptrace_getregs.  The kernel's structure is taken to be the declared
      one; a failure is a PtraceError. *)
  Definition ptrace_getregs : R (list byte) :=
    _ <- rnote GetRegs;;
    match rk_get K with
    | Some errno => rerr (EPtraceError (Some errno))
    | None => fun s => (s, Ok (r_regs s))
    end.
  (** ptrace/binding/func.py 287-296 and 315-316 *)
  Definition ptrace_setregs (regs : list byte) : R unit :=
    _ <- rnote (SetRegs regs);;
    match rk_set K regs with
    | Some errno => rerr (EPtraceError (Some errno))
    | None => fun s => (RState regs (r_calls s), Ok tt)
    end.

  (** ptrace/debugger/process.py 420-424 *)
  Fixpoint peek_words (offsets : list Z) : R (list (list byte)) :=
    match offsets with
    | [] => rret []
    | offset :: offsets =>
        _ <- rnote (PeekUser (offset * word_size p));;
        word <- rlift (rk_peekuser K (offset * word_size p));;
        b <- rlift (word2bytes p word);;
        words <- peek_words offsets;;
        rret (b :: words)
    end.
  (** ptrace/debugger/process.py 415-427.  Without PTRACE_GETREGS the words are joined with [''.join], a
      TypeError for bytes objects. *)
  Definition getregs : R (list byte) :=
    if has_ptrace_getregs p || has_ptrace_getregset p then ptrace_getregs
    else
      words <- peek_words (zrange (Z.to_nat (sizeof fs / word_size p)));;
      match words with
      | [] => rret []
      | _ => rerr ETypeError
      end.

  (** ptrace/debugger/process.py 429-442 *)
  Definition getreg (name : text) : R Z :=
    let '(name, shift, mask) :=
      match dget text_eqb name (CPU_SUB_REGISTERS p) with
      | Some x => x
      | None => (name, 0, None)
      end in
    if negb (name_in name (REGISTER_NAMES p)) then rerr EProcessError
    else
      regs <- getregs;;
      value <- rlift (get_field (p_bigendian p) fs regs name);;
      let value := Z.shiftr value shift in
      rret (match mask with
            | Some m => if m =? 0 then value else Z.land value m
            | None => value
            end).

  (** ptrace/debugger/process.py 444-445 *)
  Definition setregs (regs : list byte) : R unit := ptrace_setregs regs.

  (** ptrace/debugger/process.py 447-459; [~None] is a TypeError *)
  Definition setreg (name : text) (value : Z) : R unit :=
    regs <- getregs;;
    nv <- (match dget text_eqb name (CPU_SUB_REGISTERS p) with
           | Some (full_name, shift, mask) =>
               full_value <- rlift (get_field (p_bigendian p) fs regs full_name);;
               match mask with
               | Some mask =>
                   let full_value := Z.land full_value (Z.lnot mask) in
                   let full_value := Z.lor full_value (Z.shiftl (Z.land value mask) shift) in
                   rret (full_name, full_value)
               | None => rerr ETypeError
               end
           | None => rret (name, value)
           end);;
    let (name, value) := nv : text * Z in
    if negb (name_in name (REGISTER_NAMES p)) then rerr EProcessError
    else
      regs <- rlift (set_field (p_bigendian p) fs regs name value);;
      setregs regs.

  (** ptrace/debugger/process.py 478-483, 485-490, 492-496, 498-502 *)
  Definition setInstrPointer (ip : Z) : R unit :=
    match CPU_INSTR_POINTER p with Some r => setreg r ip | None => rerr EProcessError end.
  Definition getInstrPointer : R Z :=
    match CPU_INSTR_POINTER p with Some r => getreg r | None => rerr EProcessError end.
  Definition getStackPointer : R Z :=
    match CPU_STACK_POINTER p with Some r => getreg r | None => rerr EProcessError end.
  Definition getFramePointer : R Z :=
    match CPU_FRAME_POINTER p with Some r => getreg r | None => rerr EProcessError end.

  (** ptrace/tools.py 8-23: the lines logged.  sizeof() counts bytes, so the tests for 32 and 16 never hold. *)
  Definition dumpRegs (regs : list byte) : res (list text) :=
    let width := fold_right Nat.max O (map (fun f => List.length (fst f)) fs) in
    mapM (fun f : text * Z =>
            do value <- get_field (p_bigendian p) fs regs (fst f);
            let shown := if snd f =? 32 then formatUintHex32 value
                         else if snd f =? 16 then formatUintHex16 value
                         else formatWordHex p value in
            Ok (padl width " "%char (fst f) ++ T " = " ++ shown)) fs.
End Process.
