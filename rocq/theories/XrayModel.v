(** * XrayModel: gdb.py: followed terms, the search of terms in memory (xray), the memory dump (gcore) and the help. *)
From Coq Require Import ZArith List Ascii String Bool.
From Verif Require Import PyBase Platform IntModel RegexModel MapModel ArgModel.
Import ListNotations.
Open Scope Z_scope.

(** ** Terms *)

(** The Python literal b'...' from after the opening quote [q].  [None]: not one literal on one line up to the end of the
    text (or a null byte): it is left to eval(). *)
Definition hex_value (c : ascii) : option Z := match digit_val c with Some d => if d <? 16 then Some d else None | None => None end.
Definition is_octal (c : ascii) : bool := in_range 48 55 c.
Definition simple_escape (c : ascii) : option ascii :=
  if Ascii.eqb c "\"%char || Ascii.eqb c "'"%char || Ascii.eqb c (z2b 34) then Some c
  else if Ascii.eqb c "a"%char then Some (z2b 7)
  else if Ascii.eqb c "b"%char then Some (z2b 8)
  else if Ascii.eqb c "f"%char then Some (z2b 12)
  else if Ascii.eqb c "n"%char then Some (z2b 10)
  else if Ascii.eqb c "r"%char then Some (z2b 13)
  else if Ascii.eqb c "t"%char then Some (z2b 9)
  else if Ascii.eqb c "v"%char then Some (z2b 11)
  else None.
Definition lit_cons (c : ascii) (r : option (res (list byte))) : option (res (list byte)) :=
  match r with Some (Ok l) => Some (Ok (c :: l)) | r => r end.
Definition octal_digit (c : ascii) : Z := b2z c - 48.
Fixpoint literal (q : ascii) (s : text) : option (res (list byte)) :=
  match s with
  | [] => Some (Err ESyntaxError)
  | c :: s =>
      if Ascii.eqb c q then match s with [] => Some (Ok []) | _ => None end
      else if Ascii.eqb c "\"%char then
        match s with
        | [] => Some (Err ESyntaxError)
        | e :: s =>
            match simple_escape e with
            | Some d => lit_cons d (literal q s)
            | None =>
                if Ascii.eqb e "x"%char then
                  match s with
                  | h :: l :: s =>
                      match hex_value h, hex_value l with
                      | Some h, Some l => lit_cons (z2b (h * 16 + l)) (literal q s)
                      | _, _ => Some (Err ESyntaxError)
                      end
                  | _ => Some (Err ESyntaxError)
                  end
                else if is_octal e then
                  let one := lit_cons (z2b (octal_digit e)) (literal q s) in
                  match s with
                  | f :: s =>
                      if is_octal f then
                        let two := lit_cons (z2b (octal_digit e * 8 + octal_digit f)) (literal q s) in
                        match s with
                        | g :: s => if is_octal g then lit_cons (z2b ((octal_digit e * 64 + octal_digit f * 8 + octal_digit g) mod 256)) (literal q s) else two
                        | [] => two
                        end
                      else one
                  | [] => one
                  end
                else if char_in [z2b 0; z2b 10; z2b 13] e then None
                else if 128 <=? b2z e then Some (Err ESyntaxError)
                else lit_cons "\"%char (lit_cons e (literal q s))
            end
        end
      else if char_in [z2b 0; z2b 10; z2b 13] c then None
      else if 128 <=? b2z c then Some (Err ESyntaxError)
      else lit_cons c (literal q s)
  end.
(** gdb.py 263-271.  [eval]: the other expressions; None: the value is not a byte string. *)
Definition parseBytes (eval : text -> res (option (list byte))) (t : text) : res (list byte) :=
  let other t := do v <- eval (T "b" ++ t); match v with Some s => Ok s | None => Err ETypeError end in
  match lstrip t with
  | q :: s =>
      if Ascii.eqb q "'"%char || Ascii.eqb q (z2b 34) then
        match literal q s with Some r => r | None => other (q :: s) end
      else other (q :: s)
  | [] => other []
  end.
(** gdb.py 277-278 *)
Definition showFollowTerms (terms : list (list byte)) : text := T "[" ++ join (T ", ") (map repr_bytes terms) ++ T "]".

(** ** Search *)

(** A generator: what it gives, and how it ends *)
Definition gen (A : Type) : Type := (list A * res unit)%type.
Fixpoint gen_for {A B} (l : list A) (f : A -> gen B) : gen B :=
  match l with
  | [] => ([], Ok tt)
  | x :: l =>
      match f x with
      | (ys, Ok _) => let '(zs, r) := gen_for l f in (ys ++ zs, r)
      | (ys, Err e) => (ys, Err e)
      end
  end.
(** for x in g: f(x) *)
Definition gen_bind {A B} (g : gen A) (f : A -> gen B) : gen B :=
  match gen_for (fst g) f with
  | (ys, Ok _) => (ys, snd g)
  | (ys, Err e) => (ys, Err e)
  end.
Definition gen_res {A B} (r : res A) (f : A -> gen B) : gen B := match r with Ok a => f a | Err e => ([], Err e) end.

Section Xray.
  (** [maps id]: readProcessMappings() of the process [id]; [read id]: its readBytes(); the processes are stopped. *)
  Context (p : platform) (pid : nat -> Z) (maps : nat -> res (list mapping)) (read : nat -> Z -> Z -> res (list byte)).
  (** gdb.py 117-122 *)
  Definition getPointers (id : nat) (address : Z) : gen Z :=
    gen_res (word2bytes p address) (fun word =>
    gen_res (maps id) (fun l => gen_for l (search (read id) word))).
  (** gdb.py 280-285 *)
  Definition found : Type := (nat * mapping * Z * list byte)%type.
  Definition find_terms (processes : list nat) (terms : list (list byte)) : gen found :=
    gen_for terms (fun term =>
    gen_for processes (fun id =>
    gen_res (maps id) (fun l =>
    gen_for l (fun m => gen_bind (search (read id) term m) (fun address => ([(id, m, address, term)], Ok tt)))))).
  (** gdb.py 289-296 *)
  Definition xray_text (f : found) (pointers : list Z) : text :=
    let '(id, m, address, term) := f in
    T "term[" ++ repr_bytes term ++ T "] pid[" ++ str_int (pid id) ++ T "] " ++ map_str p m ++ T " " ++ formatAddress p address ++
    T " pointers: " ++ join (T " ") (map (formatAddress p) pointers).
  Definition xray_line (f : found) : gen text :=
    let '(id, m, address, term) := f in
    match getPointers id address with
    | (pointers, Ok _) => ([xray_text f pointers], Ok tt)
    | (_, Err e) => ([], Err e)
    end.
  Definition xray (processes : list nat) (terms : list (list byte)) : gen text := gen_bind (find_terms processes terms) xray_line.
End Xray.

(** ** Memory dump *)

(** ptrace/debugger/process.py 767-771 *)
Definition process_str (pid : Z) : text := T "<PtraceProcess #" ++ str_int pid ++ T ">".
(** gdb.py 411 *)
Definition child_pid (process : text) : text := removelast (last (split_char "#"%char process) []).
Definition is_hex (c : ascii) : bool := is_digit c || in_range 65 70 c || in_range 97 102 c.
(** gdb.py 417 *)
Definition GCORE_REGEX : regex :=
  rcat [RGroup 1 (rplus (RSet is_hex)); rchar "-"%char; RGroup 2 (rplus (RSet is_hex)); rchar " "%char; RGroup 3 (RSet (char_in (T "-r")))].
(** gdb.py 417-424: one line; what is written *)
Definition gcore_line (mem : Z -> Z -> res (list byte)) (line : text) : res (list byte) :=
  match re_match GCORE_REGEX line with
  | None => Err EAttributeError
  | Some m =>
      if text_eqb (text_group 3 m) (T "r") then
        if negb (contains (T "/lib") line) && negb (contains (T "/usr") line) then
          do start <- int_group 1 16 m;
          do end_ <- int_group 2 16 m;
          mem start (end_ - start)
        else Ok []
      else Ok []
  end.
Fixpoint gcore_lines (mem : Z -> Z -> res (list byte)) (lines : list text) : list byte * res unit :=
  match lines with
  | [] => ([], Ok tt)
  | line :: lines =>
      match gcore_line mem line with
      | Err e => ([], Err e)
      | Ok chunk => let '(rest, r) := gcore_lines mem lines in (chunk ++ rest, r)
      end
  end.
(** gdb.py 409-427.  [open_maps name]: the text of the file; [open_mem name]; [open_dump name]: open for writing; [mem start n]:
    seek() and read(); [argv1]: sys.argv[1].  Python 3 has no unbuffered text files: open(name, 'r', 0) is a ValueError.  The
    result: the file written, its content (None: no file was created) and how the function ends. *)
Definition gcore (python3 : bool) (argv1 : option text) (open_maps : text -> res text) (open_mem open_dump : text -> res unit)
  (mem : Z -> Z -> res (list byte)) (process : text) : option (text * list byte) * res unit :=
  let child := child_pid process in
  match open_maps (T "/proc/" ++ child ++ T "/maps") with
  | Err e => (None, Err e)
  | Ok maps =>
      match (if python3 then Err EValueError else open_mem (T "/proc/" ++ child ++ T "/mem")) with
      | Err e => (None, Err e)
      | Ok _ =>
          match argv1 with
          | None => (None, Err EIndexError)
          | Some argv1 =>
              let name := T "/vmdump/" ++ argv1 ++ T ".dump" in
              match open_dump name with
              | Err e => (None, Err e)
              | Ok _ => let '(written, r) := gcore_lines mem (file_lines maps) in (Some (name, written), r)
              end
          end
      end
  end.

(** ** Help *)

(** gdb.py 51-92 *)
Definition COMMANDS : list (text * text) := map (fun x => (T (fst x), T (snd x)))
  [("cont", "continue execution");
   ("step", "execute one instruction (do not enter in a call)");
   ("stepi", "execute one instruction (enter the call)");
   ("until", "execute code until specified address (until <address>)");
   ("set", "set register value (set <register>=<value>)");
   ("sys", "continue execution to next syscall");
   ("signal", "send a signal to the process (signal <signum>)");
   ("signals", "display signals");
   ("regs", "display registers");
   ("where", "display true code content (show breakpoints effects on code). e.g. 'where $eip', 'where $eip $eip+20'");
   ("print", "display a value (print <value>)");
   ("hexdump", "dump memory as specified address or address range (hexdump <address> or hexdump <start> <stop>)");
   ("gcore", "generate core file of the process");
   ("where2", "display original code content (don't show effects of breakpoint on code)");
   ("stack", "display stack content");
   ("backtrace", "dump the backtrace");
   ("proc", "display process information");
   ("maps", "display memory mappings");
   ("break", "set a breakpoint (break <address>)");
   ("breakpoints", "display breakpoints");
   ("delete", "delete a breakpoint (delete <address>)");
   ("attach", "attach a new process (e.g. ""attach 2390"")");
   ("proclist", "list of traced processes");
   ("switch", "switch active process (switch or switch <pid>)");
   ("follow", "follow a term (e.g. ""follow '\x12\x14\x27\x13'"")");
   ("showfollow", "show all ""followed"" terms");
   ("resetfollow", "reset all ""followed"" terms");
   ("xray", "show addresses of (and possible pointers to) ""followed"" terms");
   ("dbginfo", "information about the debugger");
   ("quit", "quit debugger");
   ("help", "display this help")]%string.
(** gdb.py 729-736: the lines *)
Definition help : list text :=
  map (fun c => fst c ++ T ": " ++ snd c) COMMANDS ++
  [[]; T "Value can be an hexadecimal/decimal number or a register name ($reg)";
   T "You can use operators a+b, a-b, a*b, a/b, a<<b, a>>b, a**b, and parenthesis in expressions";
   T "Use "";"" to write multiple commands on the same line (e.g. ""step; print $eax"")"].
(** gdb.py 749-752; ptrace/version.py 2-4 *)
Definition VERSION : text := join (T ".") (map str_int [0; 9; 10]).
Definition WEBSITE : text := T "http://python-ptrace.readthedocs.io/".
Definition debuggerInfo (getpid : Z) : list text :=
  [T "Debugger process ID: " ++ str_int getpid; T "python-ptrace version " ++ VERSION; T "Website: " ++ WEBSITE].
