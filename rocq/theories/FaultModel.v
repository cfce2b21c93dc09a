(** * FaultModel: the analysis of a signal (ptrace/debugger/ptrace_signal.py, ptrace/debugger/signal_reason.py).
    The process is stopped: what is read from it does not change during the analysis. *)
From Coq Require Import ZArith List Ascii String Bool.
From Verif Require Import PyBase Platform IntModel RegexModel PyEval ExprModel SigModel MapModel TraceModel.
Import ListNotations.
Open Scope Z_scope.

(** The fields of siginfo that are used (ptrace/binding/linux_struct.py 268-303) *)
Record siginfo_t : Type := SigInfo { si_addr : Z; si_pid : Z; si_uid : Z; si_status : Z }.
(** The process: getreg(), getInstrPointer(), getStackPointer(), readMappings(), disassembleOne() ([None]: no disassembler),
    getsiginfo() *)
Record target : Type := Target {
  tg_pid : Z;
  tg_getreg : text -> res Z;
  tg_ip : res Z;
  tg_sp : res Z;
  tg_mappings : res (list mapping);
  tg_instr : option (res instruction);
  tg_siginfo : res siginfo_t
}.
(** An address as given to the classes below: an integer, or a tuple of integers *)
Inductive faddr : Type := FInt (z : Z) | FList (l : list Z).

(** ** signal_reason.py *)

(** 8-17: the regular expression of the registers (upper case) *)
Definition is_in (s : string) (c : ascii) : bool := char_in (T s) c.
Definition two_upper : regex := rtimes 2 (RSet is_upper).
Definition INTEL_REGISTER_REGEX (p : platform) : option regex :=
  let segments := RCat (RSet (is_in "CDEFGS")) (rchar "S"%char) in
  let low := RCat (RSet (is_in "ABCD")) (rchar "L"%char) in
  match p_cpu p with
  | I386 => Some (rcat [RBound; ralt [RCat (rchar "E"%char) two_upper; segments; low]; RBound])
  | X86_64 => Some (rcat [RBound; ralt [RCat (RSet (is_in "ER")) two_upper; segments; low]; RBound])
  | _ => None
  end.
(** 28-35: the loop *)
Fixpoint read_registers (getreg : text -> res Z) (ms : list rmatch) (registers : list (text * Z)) : res (list (text * Z)) :=
  match ms with
  | [] => Ok registers
  | m :: ms =>
      let name := lower (m_text m) in
      match getreg name with
      | Ok value => read_registers getreg ms (dset text_eqb name value registers)
      | Err e => if is_ptrace_error e then read_registers getreg ms registers else Err e
      end
  end.
(** 20-36 *)
Definition extractRegisters (p : platform) (process : option target) (instr : option instruction) : res (list (text * Z)) :=
  match process, instr, INTEL_REGISTER_REGEX p with
  | Some tg, Some instr, Some regex =>
      match split1 " "%char (upper (in_text instr)) with
      | None => Err EIndexError
      | Some (_, asm) => read_registers (tg_getreg tg) (re_finditer regex asm) []
      end
  | _, _, _ => Ok []
  end.

(** 50-61: one address *)
Definition find_mapping (p : platform) (maps : list mapping) (size address : Z) : list text :=
  let address_str := formatAddress p address ++ (if 1 <? size then T ".." ++ formatAddress p (address + size - 1) else []) in
  let found := filter (fun m => ((mp_start m <=? address) && (address <? mp_end m)) ||
                                ((mp_start m <=? address + size - 1) && (address + size - 1 <? mp_end m))) maps in
  match found with
  | [] => [address_str ++ T " is not mapped in memory"]
  | _ => map (fun m => address_str ++ T " is part of " ++ map_str p m) found
  end.
(** 39-62 *)
Definition findMappings (p : platform) (addresses : option faddr) (process : option target) (size : option Z) : res (list text) :=
  match addresses, process with
  | Some addresses, Some tg =>
      let addresses := match addresses with FInt z => [z] | FList l => l end in
      let size := match size with Some s => s | None => 0 end in
      do maps <- tg_mappings tg;
      match maps with
      | [] => Ok []
      | _ => Ok (flat_map (find_mapping p maps size) addresses)
      end
  | _, _ => Ok []
  end.

Inductive access : Type := AnyAccess | ReadAccess | WriteAccess.
(** The classes 93-184, with the attributes of their own *)
Inductive kind : Type :=
| DivisionByZero | Abort | StackOverflow (stack_ptr : Z) (stack_map : mapping) | InvalidAccess (a : access) | InstructionError
| ChildExit (pid status uid : option Z).
(** 65-77 *)
Record reason : Type := Reason {
  r_kind : kind; r_name : text; r_text : text; r_instr : option instruction; r_registers : list (text * Z); r_mappings : list text
}.
(** registers.update() *)
Definition dict_update (d e : list (text * Z)) : list (text * Z) := fold_left (fun d kv => dset text_eqb (fst kv) (snd kv) d) e d.
(** 67-77 *)
Definition SignalInfo (p : platform) (k : kind) (name text : text) (address : option faddr) (size : option Z) (instr : option instruction)
    (process : option target) (registers : list (PyBase.text * Z)) : res reason :=
  do regs <- extractRegisters p process instr;
  let regs := dict_update regs registers in
  do mappings <- findMappings p address process size;
  Ok (Reason k name text instr regs mappings).
(** 119-156: names and prefixes *)
Definition access_name (a : access) : text :=
  match a with AnyAccess => T "invalid_mem_access" | ReadAccess => T "invalid_read" | WriteAccess => T "invalid_write" end.
Definition access_prefix (a : access) : text :=
  match a with AnyAccess => T "Invalid memory access" | ReadAccess => T "Invalid read" | WriteAccess => T "Invalid write" end.
Definition access_prefix_addr (a : access) (arguments : text) : text :=
  match a with
  | AnyAccess => T "Invalid memory access to " ++ arguments
  | ReadAccess => T "Invalid read from " ++ arguments
  | WriteAccess => T "Invalid write to " ++ arguments
  end.
(** formatAddress() of an address of 124: a tuple is the right operand of "%", that needs one element *)
Definition format_faddr (p : platform) (a : faddr) : res text :=
  match a with
  | FInt z => Ok (formatAddress p z)
  | FList [] => Ok (T "NULL")
  | FList [z] => Ok (formatWordHex p z)
  | FList _ => Err ETypeError
  end.
(** 124-144 *)
Definition InvalidMemoryAccess (p : platform) (a : access) (address : option faddr) (size : option Z) (instr : option instruction)
    (registers : list (text * Z)) (process : option target) : res reason :=
  let message :=
    match address with
    | Some (FList l) => access_prefix_addr a (join (T " or ") (map (formatAddress p) l))
    | Some (FInt z) => access_prefix_addr a (formatAddress p z)
    | None => access_prefix a
    end in
  let message :=
    match size with
    | Some s => if s =? 0 then message else message ++ T " (size=" ++ str_int s ++ T " bytes)"
    | None => message
    end in
  do name <- match address with
             | Some x => do t <- format_faddr p x; Ok (access_name a ++ T "-" ++ lower t)
             | None => Ok (access_name a)
             end;
  SignalInfo p (InvalidAccess a) name message address size instr process registers.
(** 93-97, 100-104, 107-116, 159-167, 170-180 *)
Definition new_DivisionByZero (p : platform) (instr : option instruction) (process : option target) : res reason :=
  SignalInfo p DivisionByZero (T "div_by_zero") (T "Division by zero") None None instr process [].
Definition new_Abort (p : platform) : res reason :=
  SignalInfo p Abort (T "abort") (T "Program received signal SIGABRT, Aborted.") None None None None [].
Definition new_StackOverflow (p : platform) (stack_ptr : Z) (stack_map : mapping) (instr : option instruction) (process : option target) : res reason :=
  SignalInfo p (StackOverflow stack_ptr stack_map) (T "stack_overflow") (T "STACK OVERFLOW! Stack pointer is in " ++ map_str p stack_map)
    (Some (FInt stack_ptr)) None instr process [(T "<stack ptr>", stack_ptr)].
Definition new_InstructionError (p : platform) (address : Z) (process : option target) : res reason :=
  SignalInfo p InstructionError (T "instr_error") (T "UNABLE TO EXECUTE CODE AT " ++ formatAddress p address ++ T " (SEGMENTATION FAULT)")
    (Some (FInt address)) None None process [(T "<instr pointer>", address)].
Definition new_ChildExit (p : platform) (ns : namespace) (pid status uid : option Z) : res reason :=
  let message :=
    match pid, status with
    | Some pid, Some status => formatProcessStatus ns status (T "Child process " ++ str_int pid)
    | _, _ => T "Child process exited"
    end in
  SignalInfo p (ChildExit pid status uid) (T "child_exit") message None None None None [].
(** 79-90, 182-184 *)
Definition reason_display (p : platform) (r : reason) : list text :=
  [r_text r] ++
  match r_kind r with ChildExit _ _ (Some uid) => [T "Signal sent by user " ++ str_int uid] | _ => [] end ++
  match r_instr r with Some i => [T "- instruction: " ++ in_text i] | None => [] end ++
  map (fun m => T "- mapping: " ++ m) (r_mappings r) ++
  map (fun kv => T "- register " ++ fst kv ++ T "=" ++ formatWordHex p (snd kv)) (r_registers r).

(** ** ptrace_signal.py *)

(** 25: the groups deref_size, 2 (the size without the space), deref *)
Definition DEREF_SIZE : nat := 1.
Definition DEREF : nat := 3.
Definition DEREF_REGEX : regex :=
  rcat [ropt (RGroup DEREF_SIZE (RCat (RGroup 2 (ralt [rtext (T "BYTE"); rtext (T "WORD"); rtext (T "DWORD"); rtext (T "DQWORD")])) (rchar " "%char)));
        rchar "["%char; RGroup DEREF (rplus (RSet (fun c => negb (Ascii.eqb c "]"%char)))); rchar "]"%char].
(** 27-32 *)
Definition NAMED_WORD_SIZE : list (text * Z) := [(T "BYTE", 1); (T "WORD", 2); (T "DWORD", 4); (T "DQWORD", 8)].
(** 35 *)
Definition INSTR_REGEX : regex := rrange 3 10 (RSet is_upper).
(** 89, 98, 107, 116-117, 209 *)
Definition WRITE_REGEX : regex :=
  rcat [RBegin; ralt [rtext (T "MOV"); rtext (T "TEST")]; RStar (RSet is_upper); rchar " "%char; DEREF_REGEX; rchar ","%char].
Definition READ_REGEX : regex := rcat [RBegin; INSTR_REGEX; rchar " "%char; DEREF_REGEX; rchar ","%char].
Definition LOAD_REGEX : regex :=
  rcat [INSTR_REGEX; rchar " "%char; rplus (RSet (fun c => negb (Ascii.eqb c ","%char))); rtext (T ", "); DEREF_REGEX].
Definition OPERATOR : nat := 1.
Definition SUFFIX : nat := 2.
Definition MOVS_REGEX : regex :=
  rcat [RBegin; ropt (rcat [rtext (T "REP"); ropt (rtext (T "NZ")); rchar " "%char]);
        RGroup OPERATOR (ralt [rtext (T "MOVS"); rtext (T "SCAS")]); ropt (RGroup SUFFIX (RSet (is_in "BWD")))].
Definition DIV_REGEX : regex := rcat [ropt (rchar "I"%char); rtext (T "DIV "); RGroup 1 (RStar rdot)].

(** 38-43 *)
Definition findDerefSize (m : rmatch) : option Z :=
  match group DEREF_SIZE (m_groups m) with
  | Some name => dget text_eqb name NAMED_WORD_SIZE
  | None => None
  end.

Section Fault.
  Context (p : platform) (ns : namespace) (eval : text -> res pyval) (tg : target).

  (** 46-54.  The logged message is not represented. *)
  Definition evalFaultAddress (m : rmatch) : res (option faddr) :=
    match group DEREF (m_groups m) with
    | None | Some [] => Ok None
    | Some expr =>
        match parseExpression eval (tg_getreg tg) expr with
        | Ok v => Ok (Some (match as_int v with Some z => FInt z | None => FList [] end))
        | Err EValueError => Ok None
        | Err e => Err e
        end
    end.
  (** 77-83 *)
  Definition getInstruction : res (option instruction) :=
    match tg_instr tg with
    | None => Ok None
    | Some (Ok instr) => Ok (Some instr)
    | Some (Err e) => if is_ptrace_error e then Ok None else Err e
    end.
  (** 122-155 *)
  Definition movs_size (suffix : option text) : option Z :=
    match suffix with
    | Some s => dget text_eqb s [(T "B", 1); (T "W", 2); (T "D", 4)]
    | None => None
    end.
  Definition movsInstr (fault_address : option Z) (instr : instruction) (m : rmatch) : res reason :=
    let size := movs_size (group SUFFIX (m_groups m)) in
    let source_reg := if p_64bits p then T "rsi" else T "esi" in
    let dest_reg := if p_64bits p then T "rdi" else T "edi" in
    let write := match group OPERATOR (m_groups m) with Some o => text_eqb o (T "MOVS") | None => false end in
    let tried : res (access * option faddr * list (text * Z)) :=
      do source_addr <- tg_getreg tg source_reg;
      let registers := [(source_reg, source_addr)] in
      if write then
        do dest_addr <- tg_getreg tg dest_reg;
        let registers := dset text_eqb dest_reg dest_addr registers in
        match fault_address with
        | Some a =>
            let cls := if a =? source_addr then ReadAccess else AnyAccess in
            let cls := if a =? dest_addr then WriteAccess else cls in
            Ok (cls, Some (FInt a), registers)
        | None => Ok (AnyAccess, Some (FList [source_addr; dest_addr]), registers)
        end
      else
        match fault_address with
        | Some a => Ok (if a =? source_addr then ReadAccess else AnyAccess, Some (FInt a), registers)
        | None => Ok (AnyAccess, Some (FList [source_addr]), registers)
        end in
    match tried with
    | Ok (cls, address, registers) => InvalidMemoryAccess p cls address size (Some instr) registers (Some tg)
    | Err e =>
        if is_ptrace_error e
        then InvalidMemoryAccess p AnyAccess (match fault_address with Some a => Some (FInt a) | None => None end) size (Some instr) [] (Some tg)
        else Err e
    end.
  (** 91-94 and the like: an invalid access of an instruction *)
  Definition deref_access (a : access) (instr : instruction) (fault_address : option Z) (m : rmatch) : res reason :=
    do address <- match fault_address with Some z => Ok (Some (FInt z)) | None => evalFaultAddress m end;
    InvalidMemoryAccess p a address (findDerefSize m) (Some instr) [] (Some tg).
  (** 85-120 *)
  Definition memoryFaultInstr (instr : instruction) (fault_address : option Z) : res (option reason) :=
    let asm := in_text instr in
    match re_search WRITE_REGEX asm with
    | Some m => do r <- deref_access WriteAccess instr fault_address m; Ok (Some r)
    | None =>
    match re_search READ_REGEX asm with
    | Some m => do r <- deref_access ReadAccess instr fault_address m; Ok (Some r)
    | None =>
    match re_match LOAD_REGEX asm with
    | Some m => do r <- deref_access ReadAccess instr fault_address m; Ok (Some r)
    | None =>
    match re_search MOVS_REGEX asm with
    | Some m => do r <- movsInstr fault_address instr m; Ok (Some r)
    | None => Ok None
    end end end end.
  (** 157-161 *)
  Definition getSignalInfo : res (option siginfo_t) :=
    if running_linux p then do s <- tg_siginfo tg; Ok (Some s) else Ok None.
  (** 176-184: [Some r]: the reason has been found *)
  Definition instruction_error (fault_address : Z) : res (option reason) :=
    match (do ip <- tg_ip tg;
           if ip =? fault_address then do r <- new_InstructionError p ip (Some tg); Ok (Some r) else Ok None) with
    | Ok r => Ok r
    | Err e => if is_ptrace_error e then Ok None else Err e
    end.
  (** 186-193; ptrace/debugger/process.py 285-289 *)
  Definition stack_overflow (instr : option instruction) : res (option reason) :=
    do maps <- tg_mappings tg;
    match findStack maps with
    | None => Ok None
    | Some stack =>
        do sp <- tg_sp tg;
        if negb ((mp_start stack <=? sp) && (sp <=? mp_end stack))
        then do r <- new_StackOverflow p sp stack instr (Some tg); Ok (Some r)
        else Ok None
    end.
  (** 163-203 *)
  Definition memoryFault : res reason :=
    do siginfo <- getSignalInfo;
    let fault_address := match siginfo with Some s => Some (si_addr s) | None => None end in
    do instr <- getInstruction;
    do found <- match fault_address with Some a => instruction_error a | None => Ok None end;
    match found with
    | Some r => Ok r
    | None =>
        do found <- stack_overflow instr;
        match found with
        | Some r => Ok r
        | None =>
            do found <- match instr with Some i => memoryFaultInstr i fault_address | None => Ok None end;
            match found with
            | Some r => Ok r
            | None => InvalidMemoryAccess p AnyAccess (match fault_address with Some a => Some (FInt a) | None => None end) None instr [] (Some tg)
            end
        end
    end.
  (** 205-212 *)
  Definition mathError : res (option reason) :=
    do instr <- getInstruction;
    match instr with
    | None => Ok None
    | Some i => match re_match DIV_REGEX (in_text i) with
                | None => Ok None
                | Some _ => do r <- new_DivisionByZero p (Some i) (Some tg); Ok (Some r)
                end
    end.
  (** 214-220 *)
  Definition childExit : res reason :=
    do siginfo <- getSignalInfo;
    match siginfo with
    | Some s => new_ChildExit p ns (Some (si_pid s)) (Some (si_status s)) (Some (si_uid s))
    | None => new_ChildExit p ns None None None
    end.
  (** 3-11, 66-75.  A signal the signal module does not have is never received. *)
  Definition is_signal (name : text) (signum : Z) : bool := match dget text_eqb name ns with Some n => n =? signum | None => false end.
  Definition analyze (signum : Z) : res (option reason) :=
    if is_signal (T "SIGSEGV") signum || is_signal (T "SIGBUS") signum then do r <- memoryFault; Ok (Some r)
    else if is_signal (T "SIGFPE") signum then mathError
    else if is_signal (T "SIGCHLD") signum then do r <- childExit; Ok (Some r)
    else if is_signal (T "SIGABRT") signum then do r <- new_Abort p; Ok (Some r)
    else Ok None.
  (** 222-231 *)
  Definition display (signum : Z) : res (list text) :=
    do r <- analyze signum;
    let line := repeat "-"%char 60 in
    Ok ([line; T "PID: " ++ str_int (tg_pid tg); T "Signal: " ++ signalName ns signum] ++
        match r with Some r => reason_display p r | None => [] end ++ [line]).
End Fault.
