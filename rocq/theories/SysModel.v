(** * SysModel: system calls of a traced process (ptrace/syscall/ptrace_syscall.py, ptrace/debugger/syscall_state.py). *)
From Coq Require Import ZArith List Ascii String Bool.
From Verif Require Import PyBase Platform IntModel RegModel SigModel TabModel ArgModel DbgModel.
Import ListNotations.
Open Scope Z_scope.

(** ptrace/syscall/ptrace_syscall.py 13-30 *)
Definition SYSCALL_REGISTER (p : platform) : text :=
  match p_cpu p with
  | PPC32 | PPC64 => T "gpr0"
  | ARM32 => T "r7"
  | AARCH64 => T "r8"
  | RISCV32 | RISCV64 => T "a7"
  | X86_64 => if running_linux p then T "orig_rax" else T "rax"
  | _ => if running_linux p then T "orig_eax" else T "eax"
  end.
(** ptrace/syscall/ptrace_syscall.py 32-45 *)
Definition RETURN_VALUE_REGISTER (p : platform) : res text :=
  match p_cpu p with
  | ARM32 | AARCH64 => Ok (T "r0")
  | I386 => Ok (T "eax")
  | X86_64 => Ok (T "rax")
  | PPC32 | PPC64 => Ok (T "result")
  | RISCV32 | RISCV64 => Ok (T "a0")
  | _ => Err ENotImplementedError
  end.

(** A register structure: getattr(regs, name). *)
Definition registers : Type := text -> res Z.

(** The attributes of a PtraceSyscall (ptrace/syscall/ptrace_syscall.py 54-65); the FunctionCall part is [c_func]. *)
Record syscall_call : Type := SyscallCall {
  c_func : func;
  c_number : Z;
  c_result : option Z;
  c_result_text : option text;
  c_instr_pointer : option Z
}.

Section Syscall.
  (** [errorcode]: errno.errorcode; [strerror]: os.strerror. *)
  Context (p : platform) (ns : namespace) (repr_fs : list byte -> text) (errorcode : list (Z * text)) (strerror : Z -> text).

  (** ptrace/syscall/ptrace_syscall.py 85-90 *)
  Definition readSyscall (regs : registers) : res (Z * text) :=
    do number <- regs (SYSCALL_REGISTER p);
    do names <- SYSCALL_NAMES p;
    Ok (number, match dget Z.eqb number names with
                | Some name => name
                | None => T "syscall<" ++ str_int number ++ T ">"
                end).
  (** ptrace/syscall/ptrace_syscall.py 56-65 (the caller passes the registers) *)
  Definition new_syscall (regs : registers) : res syscall_call :=
    do ns <- readSyscall regs;
    Ok (SyscallCall (Func (snd ns) (Some (T "long")) []) (fst ns) None None None).

  (** ptrace/syscall/ptrace_syscall.py 92-109.  [sp] = process.getStackPointer(). *)
  Definition argument_registers : option (list text) :=
    match p_cpu p with
    | X86_64 => Some [T "rdi"; T "rsi"; T "rdx"; T "r10"; T "r8"; T "r9"]
    | ARM32 => Some [T "r0"; T "r1"; T "r2"; T "r3"; T "r4"; T "r5"; T "r6"]
    | AARCH64 => Some [T "r0"; T "r1"; T "r2"; T "r3"; T "r4"; T "r5"; T "r6"; T "r7"]
    | RISCV32 | RISCV64 => Some [T "a0"; T "a1"; T "a2"; T "a3"; T "a4"; T "a5"; T "a6"]
    | _ =>
        if running_bsd p then None
        else match p_cpu p with
             | I386 => Some [T "ebx"; T "ecx"; T "edx"; T "esi"; T "edi"; T "ebp"]
             | PPC32 | PPC64 => Some [T "gpr3"; T "gpr4"; T "gpr5"; T "gpr6"; T "gpr7"; T "gpr8"]
             | _ => Some []   (* NotImplementedError, see readArgumentValues *)
             end
    end.
  Definition supported_cpu : bool := match p_cpu p with OtherCPU => false | _ => true end.
  Definition readArgumentValues (v : view) (sp : res Z) (regs : registers) : res (list Z) :=
    match argument_registers with
    | Some names => if supported_cpu then mapM regs names else Err ENotImplementedError
    | None =>
        do sp <- sp;
        mapM (fun index => v_word v (sp + index * word_size p)) [1; 2; 3; 4; 5; 6]
    end.
  (** ptrace/syscall/ptrace_syscall.py 111-119 *)
  Fixpoint zip_args (values : list Z) (formats : list (text * text)) : list arg :=
    match values, formats with
    | v :: values, (argtype, argname) :: formats => Arg v (Some argtype) (Some argname) None :: zip_args values formats
    | _, _ => []
    end.
  Definition readArguments (f : func) (values : list Z) : func :=
    match dget text_eqb (f_name f) SYSCALL_PROTOTYPES with
    | Some (restype, formats) => Func (f_name f) (Some restype) (f_args f ++ zip_args values formats)
    | None => set_args f (f_args f ++ map (fun v => Arg v None None None) values)
    end.

  (** ptrace/syscall/ptrace_syscall.py 76-80: arguments whose data is lost during the call *)
  Definition preformat (name : text) : list nat :=
    match dget text_eqb name PREFORMAT_ARGUMENTS with Some l => l | None => [] end.
  Fixpoint format_now (opts : options) (v : view) (indices : list nat) (f : func) : res func :=
    match indices with
    | [] => Ok f
    | i :: indices =>
        do a <- nth_arg i (f_args f);
        do t <- getText p ns repr_fs opts v f a;
        format_now opts v indices (set_args f (upd_nth i (fun a => set_text a (Some t)) (f_args f)))
    end.
  (** ptrace/syscall/ptrace_syscall.py 67-83 *)
  Definition enter (opts : options) (v : view) (sp : res Z) (regs : registers) (c : syscall_call) : res syscall_call :=
    do values <- readArgumentValues v sp regs;
    let f := readArguments (c_func c) values in
    do f <- (if text_eqb (f_name f) (T "socketcall") && o_replace_socketcall opts then
               do a0 <- nth_arg 0 (f_args f);
               do a1 <- nth_arg 1 (f_args f);
               do name <- getText p ns repr_fs opts v f a0;
               setupSocketCall p v name (a_value a1)
             else Ok f);
    do f <- format_now opts v (preformat (f_name f)) f;
    do ip <- (if o_instr_pointer opts then
                match CPU_INSTR_POINTER p with
                | Some name => do ip <- regs name; Ok (Some ip)
                | None => Err ETypeError
                end
              else Ok (c_instr_pointer c));
    Ok (SyscallCall f (c_number c) (c_result c) (c_result_text c) ip).

  (** ptrace/syscall/ptrace_syscall.py 127-135: pointed data may have changed during the call *)
  Fixpoint forget (skip : list nat) (index : nat) (l : list arg) : list arg :=
    match l with
    | [] => []
    | a :: l =>
        (if existsb (Nat.eqb index) skip then a
         else if truthy (a_type a) && negb (ends_with (T "*") (get (a_type a))) then a
         else set_text a None) :: forget skip (S index) l
    end.
  (** ptrace/syscall/ptrace_syscall.py 139-151: the value and the text of the result *)
  Definition result_text (restype : text) (result : Z) : Z * text :=
    if ends_with (T "*") restype then (result, formatAddress p result)
    else
      let uresult := result in
      let result := ulong2long p result in
      match (if result <? 0 then dget Z.eqb (- result) errorcode else None) with
      | Some code => (result, str_int result ++ T " " ++ code ++ T " (" ++ strerror (- result) ++ T ")")
      | None =>
          if negb ((0 <=? result) && (result <=? 9))
          then (result, str_int result ++ T " (" ++ formatWordHex p uresult ++ T ")")
          else (result, str_int result)
      end.
  (** ptrace/syscall/ptrace_syscall.py 121-153.  [result] = process.getreg(RETURN_VALUE_REGISTER). *)
  Definition exit_ (result : res Z) (c : syscall_call) : res (syscall_call * text) :=
    let f := c_func c in
    let f := set_args f (forget (preformat (f_name f)) 0 (f_args f)) in
    do result <- result;
    let '(value, t) := result_text (get (f_restype f)) result in
    Ok (SyscallCall f (c_number c) (Some value) (Some t) (c_instr_pointer c), t).

  (** ** SyscallState *)

  (** ptrace/debugger/syscall_state.py 7-11, 45-48.  ignore_callback and ignore_exec_trap do not change. *)
  Record sstate : Type := SState { ss_syscall : option syscall_call; ss_name : option text; ss_exit : bool }.
  Definition cleared : sstate := SState None None false.
  Definition SM (A : Type) : Type := sstate * dstate -> (sstate * dstate) * out A.
  Definition sret {A} (a : A) : SM A := fun s => (s, Ret a).
  Definition sbind {A B} (m : SM A) (f : A -> SM B) : SM B :=
    fun s => match m s with
             | (s, Ret a) => f a s
             | (s, Raise x) => (s, Raise x)
             end.
  Definition sput (f : sstate -> sstate) : SM unit := fun s => ((f (fst s), snd s), Ret tt).
  Definition sget : SM sstate := fun s => (s, Ret (fst s)).
  Definition slift {A} (r : res A) : SM A :=
    fun s => (s, match r with Ok a => Ret a | Err e => Raise (XErr e) end).
  Definition sdbg {A} (m : D A) : SM A := fun s => let '(d, o) := m (snd s) in ((fst s, d), o).

  (** What the stopped process contains: registers, memory, stack pointer, the register of the result *)
  Record stop : Type := Stop { st_regs : res registers; st_view : view; st_sp : res Z; st_result : res Z }.
  Context (K : dkernel) (ignore_exec_trap : bool) (ignore_callback : option (syscall_call -> bool)).

  (** ptrace/debugger/syscall_state.py 19-31 *)
  Definition ss_enter (opts : options) (st : stop) : SM (option syscall_call) :=
    sbind (slift (st_regs st)) (fun regs =>
    sbind (slift (new_syscall regs)) (fun c =>
    sbind (sput (fun s => SState (Some c) (Some (f_name (c_func c))) (ss_exit s))) (fun _ =>
    sbind (if match ignore_callback with Some ignore => negb (ignore c) | None => true end then
             sbind (slift (enter opts (st_view st) (st_sp st) regs c)) (fun c =>
             sput (fun s => SState (Some c) (ss_name s) (ss_exit s)))
           else sput (fun s => SState None (ss_name s) (ss_exit s))) (fun _ =>
    sbind (sput (fun s => SState (ss_syscall s) (ss_name s) true)) (fun _ =>
    sbind sget (fun s => sret (ss_syscall s))))))).
  (** ptrace/debugger/syscall_state.py 32-43; process.waitSignals() is debugger.waitSignals(pid=process.pid)
      (process.py 735-736) *)
  Definition skip_exec_trap (fuel : nat) (id : nat) : D unit :=
    _ <== syscall K p id 0;
    q <== get_proc id;
    _ <== waitSignals K p fuel [SIGTRAP; Z.lor SIGTRAP 0x80] (Some (pr_pid q));
    dret tt.
  Definition ss_exit_ (fuel : nat) (id : nat) (st : stop) : SM (option syscall_call) :=
    sbind sget (fun s =>
    sbind (match ss_syscall s with
           | Some c => sbind (slift (exit_ (st_result st) c)) (fun ct =>
                       sput (fun s => SState (Some (fst ct)) (ss_name s) (ss_exit s)))
           | None => sret tt
           end) (fun _ =>
    sbind sget (fun s =>
    sbind (sdbg dget_state) (fun d =>
    sbind (if ignore_exec_trap && text_eqb (get (ss_name s)) (T "execve") && negb (d_trace_exec d)
           then sdbg (skip_exec_trap fuel id) else sret tt) (fun _ =>
    sbind sget (fun s =>
    sbind (sput (fun _ => cleared)) (fun _ =>
    sret (ss_syscall s)))))))).
  (** ptrace/debugger/syscall_state.py 13-17 *)
  Definition ss_event (opts : options) (fuel : nat) (id : nat) (st : stop) : SM (option syscall_call) :=
    sbind sget (fun s => if ss_exit s then ss_exit_ fuel id st else ss_enter opts st).
End Syscall.
