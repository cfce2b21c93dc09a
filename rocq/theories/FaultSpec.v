(** * FaultSpec: the vocabulary of the properties about the analysis of signals. *)
From Coq Require Import ZArith List Ascii String Bool.
From Verif Require Import PyBase Platform IntModel RegexModel SigModel MapModel TraceModel FaultModel.
Import ListNotations.
Open Scope Z_scope.

(** ** Mappings *)

(** One of the [size] bytes at [a] is in the mapping *)
Definition touches (a size : Z) (m : mapping) : Prop := exists x, a <= x < a + size /\ mp_start m <= x < mp_end m.
(** The same, decided: the two intervals overlap *)
Definition overlap (a size : Z) (m : mapping) : bool := Z.max a (mp_start m) <? Z.min (a + size) (mp_end m).
(** The name of the accessed bytes in a report *)
Definition range_name (p : platform) (a size : Z) : text :=
  if 1 <? size then formatAddress p a ++ T ".." ++ formatAddress p (a + size - 1) else formatAddress p a.
(** The report when the bytes are in the mappings [hits] *)
Definition report (p : platform) (a size : Z) (hits : list mapping) : list text :=
  match hits with
  | [] => [range_name p a size ++ T " is not mapped in memory"]
  | _ => map (fun m => range_name p a size ++ T " is part of " ++ map_str p m) hits
  end.
(** The first mapping with the name [stack] *)
Definition is_stack (m : mapping) : Prop := mp_pathname m = Some (T "[stack]").
Definition first_stack (maps : list mapping) (m : mapping) : Prop :=
  exists before after, maps = before ++ m :: after /\ is_stack m /\ Forall (fun x => ~ is_stack x) before.
(** The stack pointer is not in the stack, nor just above it (where it is when the stack is empty) *)
Definition out_of_stack (sp : Z) (m : mapping) : Prop := sp < mp_start m \/ mp_end m < sp.

(** ** Instructions *)

Definition upper_word (t : text) : Prop := Forall (fun c => is_upper c = true) t.
(** A dereference, maybe with a size: [DWORD [EDX+0x8]] *)
Definition size_names : list text := [T "BYTE"; T "WORD"; T "DWORD"; T "DQWORD"].
Definition deref_text (t : text) : Prop :=
  exists size expr, (size = [] \/ exists n, In n size_names /\ size = n ++ T " ") /\ expr <> [] /\ ~ In "]"%char expr /\
                    t = size ++ T "[" ++ expr ++ T "]".
(** [MOV [EAX], EBX], [TEST [EAX], EBX]: the destination is a dereference *)
Definition write_form (asm : text) : Prop :=
  exists op suffix d rest, In op [T "MOV"; T "TEST"] /\ upper_word suffix /\ deref_text d /\ asm = op ++ suffix ++ T " " ++ d ++ T "," ++ rest.
(** [CMP [EAX], EBX]: the first operand of another instruction is a dereference *)
Definition read_form (asm : text) : Prop :=
  exists op d rest, (3 <= List.length op <= 10)%nat /\ upper_word op /\ deref_text d /\ asm = op ++ T " " ++ d ++ T "," ++ rest.
(** [MOV EAX, [EBX]]: the second operand is a dereference *)
Definition load_form (asm : text) : Prop :=
  exists op x d rest, (3 <= List.length op <= 10)%nat /\ upper_word op /\ x <> [] /\ ~ In ","%char x /\ deref_text d /\
                      asm = op ++ T " " ++ x ++ T ", " ++ d ++ rest.
(** The same, with the expression of the dereference *)
Definition deref_of (expr t : text) : Prop :=
  exists size, (size = [] \/ exists n, In n size_names /\ size = n ++ T " ") /\ expr <> [] /\ ~ In "]"%char expr /\ t = size ++ T "[" ++ expr ++ T "]".
Definition dereferences (acc : access) (expr asm : text) : Prop :=
  match acc with
  | WriteAccess => exists op suffix d rest, In op [T "MOV"; T "TEST"] /\ upper_word suffix /\ deref_of expr d /\ asm = op ++ suffix ++ T " " ++ d ++ T "," ++ rest
  | ReadAccess =>
      ~ write_form asm /\
      ((exists op d rest, (3 <= List.length op <= 10)%nat /\ upper_word op /\ deref_of expr d /\ asm = op ++ T " " ++ d ++ T "," ++ rest) \/
       (~ read_form asm /\ exists op x d rest, (3 <= List.length op <= 10)%nat /\ upper_word op /\ x <> [] /\ ~ In ","%char x /\ deref_of expr d /\
                                            asm = op ++ T " " ++ x ++ T ", " ++ d ++ rest))
  | AnyAccess => False
  end.
(** [MOVSB], [REP MOVSD], [REPNZ SCASB] *)
Definition string_form (operator asm : text) : Prop :=
  exists prefix rest, In prefix [[]; T "REP "; T "REPNZ "] /\ In operator [T "MOVS"; T "SCAS"] /\ asm = prefix ++ operator ++ rest.
(** The letter after the operator of a string instruction tells how many bytes it moves: [MOVSB] 1, [MOVSW] 2, [MOVSD] 4 *)
Definition string_size (asm : text) (n : Z) : Prop :=
  exists prefix operator letter rest, In prefix [[]; T "REP "; T "REPNZ "] /\ In operator [T "MOVS"; T "SCAS"] /\
    In (letter, n) [("B"%char, 1); ("W"%char, 2); ("D"%char, 4)] /\ asm = prefix ++ operator ++ letter :: rest.
(** [DIV EBX], [IDIV EBX] *)
Definition div_form (asm : text) : Prop := exists rest, asm = T "DIV " ++ rest \/ asm = T "IDIV " ++ rest.

(** ** Names and texts of the reports *)

(** An access to an unknown place, to one place, to one of several places *)
Definition access_words (acc : access) : string * string * string :=
  match acc with
  | AnyAccess => ("invalid_mem_access", "Invalid memory access", " to ")%string
  | ReadAccess => ("invalid_read", "Invalid read", " from ")%string
  | WriteAccess => ("invalid_write", "Invalid write", " to ")%string
  end.
Definition access_text (p : platform) (acc : access) (address : option faddr) : text :=
  let '(_, said, to) := access_words acc in
  match address with
  | None => T said
  | Some (FInt z) => T said ++ T to ++ formatAddress p z
  | Some (FList l) => T said ++ T to ++ join (T " or ") (map (formatAddress p) l)
  end.
Definition size_text (size : Z) : text := T " (size=" ++ str_int size ++ T " bytes)".
(** The name; a tuple of addresses is formatted like a number *)
Definition access_title (p : platform) (acc : access) (address : option faddr) : text :=
  let '(name, _, _) := access_words acc in
  match address with
  | None => T name
  | Some (FInt z) => T name ++ T "-" ++ lower (formatAddress p z)
  | Some (FList []) => T name ++ T "-null"
  | Some (FList (z :: _)) => T name ++ T "-" ++ lower (formatWordHex p z)
  end.
(** The name of any report: [a] is the address of the fault *)
Definition report_title (p : platform) (a : Z) (k : kind) : text :=
  match k with
  | DivisionByZero => T "div_by_zero"
  | Abort => T "abort"
  | StackOverflow _ _ => T "stack_overflow"
  | InstructionError => T "instr_error"
  | ChildExit _ _ _ => T "child_exit"
  | InvalidAccess acc => access_title p acc (Some (FInt a))
  end.

(** ** Registers *)

(** A whole word of a text *)
Definition no_word_at_end (t : text) : Prop := forall t' c, t = t' ++ [c] -> is_word c = false.
Definition no_word_at_start (t : text) : Prop := forall t' c, t = c :: t' -> is_word c = false.
Definition word_of (asm w : text) : Prop :=
  exists before after, asm = before ++ w ++ after /\ no_word_at_end before /\ no_word_at_start after.
(** The names that are looked for *)
Definition known_register (p : platform) (w : text) : Prop :=
  (exists x y z, w = [x; y; z] /\ (x = "E"%char \/ (p_cpu p = X86_64 /\ x = "R"%char)) /\ is_upper y = true /\ is_upper z = true) \/
  In w [T "CS"; T "DS"; T "ES"; T "FS"; T "GS"; T "SS"] \/ In w [T "AL"; T "BL"; T "CL"; T "DL"].
(** What follows the first space of an instruction, in upper case *)
Definition operands (asm ops : text) : Prop := exists op, ~ In " "%char op /\ upper asm = op ++ T " " ++ ops.
(** The registers of the general purpose of the 64 bits processors that have a number *)
Definition numbered_registers : list text := map T ["R8"; "R9"; "R10"; "R11"; "R12"; "R13"; "R14"; "R15"]%string.

(** ** What can be read *)
Definition only_ptrace_errors {A} (r : res A) : Prop := match r with Ok _ => True | Err e => is_ptrace_error e = true end.

(** ** What instructions do, for the comparison with the report (Intel 64 and IA-32 Architectures Software Developer's
    Manual, volume 2): the kind of the access to the dereferenced operand.  A read-modify-write faults as a write. *)
Definition intel_access : list (text * access) :=
  [(T "MOV [RAX], RBX", WriteAccess); (T "MOV RBX, [RAX]", ReadAccess); (T "CMP [RAX], RBX", ReadAccess);
   (T "TEST [RAX], RBX", ReadAccess); (T "ADD [RAX], RBX", WriteAccess); (T "INC QWORD [RAX]", WriteAccess)].
(** The number of bytes accessed *)
Definition intel_size : list (text * Z) :=
  [(T "MOV BYTE [RAX], 0x0", 1); (T "MOV WORD [RAX], 0x0", 2); (T "MOV DWORD [RAX], 0x0", 4); (T "MOV QWORD [RAX], 0x0", 8)].

(** ** The end of a child and the status that comes with SIGCHLD (sigaction(2)): the exit code, or the signal *)
Inductive child_end : Type := ChildExited (code : Z) | ChildKilled (signum : Z).
Definition chld_status (e : child_end) : Z := match e with ChildExited c => c | ChildKilled n => n end.
Definition chld_text (ns : namespace) (pid : Z) (e : child_end) : text :=
  T "Child process " ++ str_int pid ++
  match e with
  | ChildExited c => if c =? 0 then T " exited normally" else T " exited with code " ++ str_int c
  | ChildKilled n => T " killed by signal " ++ signalName ns n
  end.
