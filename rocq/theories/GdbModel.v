(** * GdbModel: the debugger gdb.py.
    The debugger, the traced processes, the terminal and the user are an environment: every call to them is recorded in
    a history and answered by [env], which may look at the whole history; any answer may be an exception.  The log
    lines are part of the history.  Processes and breakpoints are objects, referred to by numbers; texts containing
    their str() are represented by constructors of [gline].  Messages of exceptions are not represented. *)
From Coq Require Import ZArith List Ascii String Bool.
From Verif Require ArgModel.
From Verif Require Import PyBase PyInt Platform IntModel ToolsModel SigModel DbgModel MapModel TraceModel PyEval ExprModel.
Import ListNotations.
Open Scope Z_scope.

(** The message a command returns: str() of an exception, a text, "Unable to set $%s=%s: %s",
    "Unable to set breakpoint at %s: %s" *)
Inductive emsg : Type := MError (e : exn) | MText (t : text) | MUnset (key : text) (value : Z) (e : exn) | MNoBreak (address : Z) (e : exn).

Inductive gline : Type :=
| LText (t : text)                        (* a line without objects *)
| LSend (signum : Z) (id : nat)           (* "Send %s to %s" *)
| LStopped (bp : nat)                     (* "Stopped at %s" *)
| LSwitch (id : nat)                      (* "Switch to %s" *)
| LInterrupted (id : nat) (signum : Z)    (* "%s interrupted by %s" *)
| LEvent (ev : event)                     (* error(event) *)
| LNew (id : nat)                         (* "New process: %s" *)
| LProcess (id : nat) (active : bool)     (* proclist *)
| LBreakpoint (id : nat) (bp : nat)       (* breakpoints *)
| LNewBreakpoint (bp : nat)
| LDeleted (bp : nat)
| LMapping (m : mapping)                  (* "Address is part of mapping: %s" *)
| LSendInt (id : nat)                     (* "Interrupt %s (send SIGINT)" *)
| LWaitInt (id : nat)
| LCommandError (x : dexn)                (* "Command error: %s" *)
| LPtraceError (e : exn)                  (* "ERROR: %s" *)
| LDebuggerError (x : dexn)               (* "Debugger error: %s" *)
| LNoInstr (e : exn)                      (* "Unable to read current instruction: %s" *)
| LNoSize (address : Z) (e : exn)         (* "Warning: Unable to read instruction size at %s: %s" *)
| LErrmsg (m : emsg)                      (* print(errmsg, file=stderr) *)
| LInstr (prefix : text) (address : Z).
Inductive gcall : Type :=
| CLog (l : gline)
| CInput                                  (* raw_input() *)
| CEcho                                   (* enableEchoMode() *)
| CTermWidth                              (* terminalWidth() *)
| CProcesses                              (* iter(self.debugger), self.debugger.list *)
| CLookup (pid : Z)                       (* self.debugger[pid] *)
| CAddProcess (pid : Z)                   (* self.debugger.addProcess(pid, False) *)
| CWaitSignals                            (* self.debugger.waitSignals() *)
| CQuit                                   (* self.debugger.quit() *)
| CStart                                  (* setupDebugger(), createProcess() *)
| CClear (id : nat)                       (* process.syscall_state.clear() *)
| CCont (id : nat) (signum : Z)
| CStep (id : nat)
| CSyscall (id : nat)
| CWaitSyscall (id : nat)
| CSyscallEvent (id : nat)                (* syscall_state.event(), the text to display *)
| CWait (id : nat) (signum : Z)           (* process.waitSignals(signum) *)
| CDisplay (ev : event)                   (* event.display() *)
| CTerminated (id : nat)                  (* process.processTerminated() *)
| CGetIP (id : nat)
| CGetReg (id : nat) (name : text)
| CSetReg (id : nat) (name : text) (v : Z)
| CReadWord (id : nat) (address : Z)
| CReadBytes (id : nat) (address size : Z)
| CMappings (id : nat)
| CFindBreakpoint (id : nat) (address : Z)
| CCreateBreakpoint (id : nat) (address : Z) (size : option Z)
| CDesinstall (bp : nat) (set_ip : bool)
| CBreakpoints (id : nat)                 (* process.breakpoints.values() *)
| CInstrSize (id : nat) (address : Z)     (* disassembleOne(address).size *)
| CDisassemble (id : nat)                 (* disassembleOne(): the address *)
| CDumpCode (id : nat) (start stop : option Z) (manage_bp : bool)
| CDump (what : text) (id : nat)          (* dumpRegs, dumpStack, dumpMaps, getBacktrace, dumpProcessInfo *)
| CKill (id : nat) (signum : Z)
| CIsStopped (id : nat)
| CIsTraced (id : nat)
| CErrorPid (e : exn)                     (* err.pid *)
| CEvalBytes (t : text)                   (* eval('b' + text) *)
| CXray (terms : list (list byte))
| CPid (id : nat)                         (* process.pid *)
| COpen (path mode : text)                (* the system call open() of open(path, mode) *)
| CArgv1                                  (* sys.argv[1] *)
| CCopyRegions (id : nat).                (* gcore(): the loop over the mappings *)
Inductive ans : Type :=
| AUnit | AEof | ABool (b : bool) | AInt (z : Z) | AText (t : text) | ABytes (s : list byte) | AProcs (l : list nat)
| AObj (o : option nat) | AEvent (ev : event) | AMaps (l : list mapping) | ARaise (x : dexn).

Record gstate : Type := GState {
  g_process : nat;                   (* self.process *)
  g_last : list (nat * Z);           (* self.last_signal *)
  g_follow : list (list byte);       (* self.followterms *)
  g_previous : option text;          (* self.previous_command *)
  g_hist : list (gcall * ans)        (* the latest call first *)
}.
Definition set_process (id : nat) (st : gstate) : gstate := GState id (g_last st) (g_follow st) (g_previous st) (g_hist st).
Definition set_last (l : list (nat * Z)) (st : gstate) : gstate := GState (g_process st) l (g_follow st) (g_previous st) (g_hist st).
Definition set_follow (f : list (list byte)) (st : gstate) : gstate := GState (g_process st) (g_last st) f (g_previous st) (g_hist st).
Definition set_previous (c : option text) (st : gstate) : gstate := GState (g_process st) (g_last st) (g_follow st) c (g_hist st).
Definition push (c : gcall) (a : ans) (st : gstate) : gstate :=
  GState (g_process st) (g_last st) (g_follow st) (g_previous st) ((c, a) :: g_hist st).

Definition GM (A : Type) : Type := gstate -> gstate * out A.
Definition gret {A} (a : A) : GM A := fun st => (st, Ret a).
Definition graise {A} (x : dexn) : GM A := fun st => (st, Raise x).
Definition gbind {A B} (m : GM A) (f : A -> GM B) : GM B :=
  fun st => match m st with (st, Ret a) => f a st | (st, Raise x) => (st, Raise x) end.
Notation "x <-- m ; f" := (gbind m (fun x => f)) (at level 61, m at next level, right associativity).
(** try: m except: h *)
Definition gtry {A} (m : GM A) (h : dexn -> GM A) : GM A :=
  fun st => match m st with (st, Ret a) => (st, Ret a) | (st, Raise x) => h x st end.
Definition gget : GM gstate := fun st => (st, Ret st).
Definition gmodify (f : gstate -> gstate) : GM unit := fun st => (f st, Ret tt).
Definition glog (l : gline) : GM unit := fun st => (push (CLog l) AUnit st, Ret tt).
Fixpoint giter {A} (f : A -> GM unit) (l : list A) : GM unit :=
  match l with
  | [] => gret tt
  | x :: l => _ <-- f x; giter f l
  end.

(** gdb.py 95-104 *)
Definition ascii_char (c : ascii) : ascii := if in_range 32 126 c then c else "."%char.
Definition formatAscii (data : list byte) : text := map ascii_char data.
(** gdb.py 107-111 *)
Definition formatHexa (data : list byte) : text := join (T " ") (map (fun c => fmt_int0 16 2 (b2z c)) data).

(** gdb.py 50-92 *)
Definition COMMANDS : list (text * text) :=
  [(T "cont", T "continue execution");
   (T "step", T "execute one instruction (do not enter in a call)");
   (T "stepi", T "execute one instruction (enter the call)");
   (T "until", T "execute code until specified address (until <address>)");
   (T "set", T "set register value (set <register>=<value>)");
   (T "sys", T "continue execution to next syscall");
   (T "signal", T "send a signal to the process (signal <signum>)");
   (T "signals", T "display signals");
   (T "regs", T "display registers");
   (T "where", T "display true code content (show breakpoints effects on code). e.g. 'where $eip', 'where $eip $eip+20'");
   (T "print", T "display a value (print <value>)");
   (T "hexdump", T "dump memory as specified address or address range (hexdump <address> or hexdump <start> <stop>)");
   (T "gcore", T "generate core file of the process");
   (T "where2", T "display original code content (don't show effects of breakpoint on code)");
   (T "stack", T "display stack content");
   (T "backtrace", T "dump the backtrace");
   (T "proc", T "display process information");
   (T "maps", T "display memory mappings");
   (T "break", T "set a breakpoint (break <address>)");
   (T "breakpoints", T "display breakpoints");
   (T "delete", T "delete a breakpoint (delete <address>)");
   (T "attach", T "attach a new process (e.g. ""attach 2390"")");
   (T "proclist", T "list of traced processes");
   (T "switch", T "switch active process (switch or switch <pid>)");
   (T "follow", T "follow a term (e.g. ""follow '\x12\x14\x27\x13'"")");
   (T "showfollow", T "show all ""followed"" terms");
   (T "resetfollow", T "reset all ""followed"" terms");
   (T "xray", T "show addresses of (and possible pointers to) ""followed"" terms");
   (T "dbginfo", T "information about the debugger");
   (T "quit", T "quit debugger");
   (T "help", T "display this help")].

(** gdb.py 298-365: what a command line means *)
Inductive command : Type :=
| KCont | KProc | KProclist | KAttach (t : text) | KRegs | KStack | KGcore | KBacktrace | KWhere (t : text) | KWhere2 (t : text)
| KMaps | KDbginfo | KStep | KStepi | KSys | KHelp | KSet (t : text) | KUntil (t : text) | KSwitch (t : text) | KBreak (t : text)
| KBreakpoints | KSignals | KDelete (t : text) | KHexdump (t : text) | KSignal (t : text) | KPrint (t : text) | KFollow (t : text)
| KShowfollow | KResetfollow | KXray | KUnknown (t : text).
Definition is (name : string) (c : text) : bool := text_eqb c (T name).
Definition has (prefix : string) (c : text) : bool := starts_with (T prefix) c.
Definition dispatch (c : text) : command :=
  if is "cont" c then KCont
  else if is "proc" c then KProc
  else if is "proclist" c then KProclist
  else if has "attach " c then KAttach (skipn 7 c)
  else if is "regs" c then KRegs
  else if is "stack" c then KStack
  else if is "gcore" c then KGcore
  else if is "backtrace" c then KBacktrace
  else if is "where" c || has "where " c then KWhere (skipn 6 c)
  else if is "where2" c || has "where2 " c then KWhere2 (skipn 7 c)
  else if is "maps" c then KMaps
  else if is "dbginfo" c then KDbginfo
  else if is "step" c then KStep
  else if is "stepi" c then KStepi
  else if is "sys" c then KSys
  else if is "help" c then KHelp
  else if has "set " c then KSet (skipn 4 c)
  else if has "until " c then KUntil (skipn 6 c)
  else if has "switch" c || is "switch" c then KSwitch (skipn 6 c)
  else if has "break " c then KBreak (skipn 6 c)
  else if has "breakpoints" c then KBreakpoints
  else if has "signals" c then KSignals
  else if has "delete " c then KDelete (skipn 7 c)
  else if has "hexdump " c then KHexdump (skipn 8 c)
  else if has "signal " c then KSignal (skipn 7 c)
  else if has "print " c then KPrint (skipn 6 c)
  else if has "follow " c then KFollow (skipn 7 c)
  else if is "showfollow" c then KShowfollow
  else if is "resetfollow" c then KResetfollow
  else if is "xray" c then KXray
  else KUnknown c.

Section Gdb.
  Context (p : platform) (ns : namespace) (has_disassembler : bool) (eval : text -> res pyval)
          (env : list (gcall * ans) -> gcall -> ans).

  (** A call to the environment; an answer of the wrong kind is undefined. *)
  Definition ask (c : gcall) : GM ans :=
    fun st => let a := env (g_hist st) c in
      (push c a st, match a with ARaise x => Raise x | a => Ret a end).
  Definition ill {A} : GM A := graise (XErr EUndefined).
  Definition ask_unit (c : gcall) : GM unit := a <-- ask c; match a with AUnit => gret tt | _ => ill end.
  Definition ask_bool (c : gcall) : GM bool := a <-- ask c; match a with ABool b => gret b | _ => ill end.
  Definition ask_int (c : gcall) : GM Z := a <-- ask c; match a with AInt z => gret z | _ => ill end.
  Definition ask_bytes (c : gcall) : GM (list byte) := a <-- ask c; match a with ABytes s => gret s | _ => ill end.
  Definition ask_procs (c : gcall) : GM (list nat) := a <-- ask c; match a with AProcs l => gret l | _ => ill end.
  Definition ask_obj (c : gcall) : GM (option nat) := a <-- ask c; match a with AObj o => gret o | _ => ill end.
  Definition ask_new (c : gcall) : GM nat := a <-- ask c; match a with AObj (Some o) => gret o | _ => ill end.
  Definition ask_event (c : gcall) : GM event := a <-- ask c; match a with AEvent e => gret e | _ => ill end.
  Definition ask_maps (c : gcall) : GM (list mapping) := a <-- ask c; match a with AMaps l => gret l | _ => ill end.

  (** gdb.py 207-252 with the registers and memory of the current process, which is stopped *)
  Definition peek (h : list (gcall * ans)) (c : gcall) : res Z :=
    match env h c with AInt z => Ok z | ARaise (XErr e) => Err e | _ => Err EUndefined end.
  Definition glift {A} (r : res A) : GM A := match r with Ok a => gret a | Err e => graise (XErr e) end.
  Definition g_parseInteger (t : text) : GM Z :=
    st <-- gget; glift (parseInteger p eval (fun name => peek (g_hist st) (CGetReg (g_process st) name)) (fun a => peek (g_hist st) (CReadWord (g_process st) a)) t).
  Definition g_parseIntegers (t : text) : GM (list Z) :=
    st <-- gget; glift (parseIntegers p eval (fun name => peek (g_hist st) (CGetReg (g_process st) name)) (fun a => peek (g_hist st) (CReadWord (g_process st) a)) t).
  (** try: x = m except ValueError as err: return str(err) *)
  Definition or_message {A} (m : GM A) (f : A -> GM (option emsg)) : GM (option emsg) :=
    r <-- gtry (a <-- m; gret (Ok a)) (fun x => match x with XErr EValueError => gret (Err EValueError) | x => graise x end);
    match r with Ok a => f a | Err e => gret (Some (MError e)) end.

  (** gdb.py 660-664 *)
  Definition switchProcess (id : nat) : GM unit :=
    st <-- gget;
    if Nat.eqb (g_process st) id then gret tt
    else _ <-- glog (LSwitch id); gmodify (set_process id).
  (** gdb.py 666-671 *)
  Definition nextProcess : GM unit :=
    l <-- ask_procs CProcesses;
    match l with id :: _ => switchProcess id | [] => gret tt end.
  (** gdb.py 639-658 *)
  Fixpoint index_of (x : nat) (l : list nat) : option nat :=
    match l with
    | [] => None
    | y :: l => if Nat.eqb x y then Some O else option_map S (index_of x l)
    end.
  Definition switch (t : text) : GM (option emsg) :=
    match t with
    | [] =>
        l <-- ask_procs CProcesses;
        if Nat.eqb (List.length l) 1 then gret (Some (MText (T "There is only one process!")))
        else
          st <-- gget;
          match index_of (g_process st) l with
          | None => graise (XErr EValueError)
          | Some i =>
              match nth_error l (Nat.modulo (S i) (List.length l)) with
              | Some id => _ <-- switchProcess id; gret None
              | None => graise (XErr EIndexError)
              end
          end
    | _ =>
        or_message (g_parseInteger t) (fun pid =>
          o <-- ask_obj (CLookup pid);
          match o with
          | Some id => _ <-- switchProcess id; gret None
          | None => gret (Some (MText (T "There is not process " ++ str_int pid)))
          end)
    end.

  (** gdb.py 167-179; signum None is 0 *)
  Definition del_last (id : nat) (st : gstate) : gstate :=
    if dmem Nat.eqb id (g_last st) then set_last (ddel Nat.eqb id (g_last st)) st else st.
  Definition continueProcess (id : nat) (signum : Z) : GM unit :=
    st <-- gget;
    let signum := if signum =? 0 then match dget Nat.eqb id (g_last st) with Some s => s | None => 0 end else signum in
    if negb (signum =? 0) then
      _ <-- glog (LSend signum id);
      _ <-- ask_unit (CCont id signum);
      gmodify (del_last id)
    else ask_unit (CCont id 0).
  (** gdb.py 738-742 *)
  Definition processSignal (signum : Z) (id : nat) : GM unit :=
    _ <-- ask_unit (CDisplay (ProcessSignal signum id));
    _ <-- switchProcess id;
    st <-- gget;
    _ <-- gmodify (set_last (dset Nat.eqb (g_process st) signum (g_last st)));
    glog (LInterrupted (g_process st) signum).
  (** gdb.py 181-205 *)
  Definition cont_loop (signum : Z) : list nat -> GM unit :=
    giter (fun id =>
      _ <-- ask_unit (CClear id);
      st <-- gget;
      continueProcess id (if Nat.eqb id (g_process st) then signum else 0)).
  Definition gdb_cont (signum : Z) : GM (option emsg) :=
    l <-- ask_procs CProcesses;
    _ <-- cont_loop signum l;
    ev <-- ask_event CWaitSignals;
    match ev with
    | ProcessSignal s id =>
        if s =? SIGTRAP then
          st <-- gget;
          ip <-- ask_int (CGetIP (g_process st));
          let ip := if is_powerpc (p_cpu p) then ip else ip - 1 in
          bp <-- ask_obj (CFindBreakpoint (g_process st) ip);
          match bp with
          | Some bp => _ <-- glog (LStopped bp); _ <-- ask_unit (CDesinstall bp true); gret None
          | None => gret None
          end
        else _ <-- processSignal s id; gret None
    | _ => ill
    end.
  (** gdb.py 367-379 *)
  Definition parseSignum (t : text) : GM Z :=
    let signals := inverseDict text_eqb (getSignalNames ns) in
    match dget text_eqb t signals with
    | Some s => gret s
    | None =>
        match dget text_eqb (T "SIG" ++ t) signals with
        | Some s => gret s
        | None => g_parseInteger t
        end
    end.
  (** gdb.py 381-394: try ... finally *)
  Definition gdb_signal (t : text) : GM (option emsg) :=
    or_message (parseSignum t) (fun signum =>
      st <-- gget;
      let last := g_process st in
      r <-- gtry (gdb_cont signum) (fun x => _ <-- gmodify (del_last last); graise x);
      _ <-- gmodify (del_last last);
      gret r).

  (** gdb.py 396-407 *)
  Definition print_ (t : text) : GM (option emsg) :=
    or_message (g_parseInteger t) (fun value =>
      _ <-- glog (LText (T "Decimal: " ++ str_int value));
      _ <-- glog (LText (T "Hexadecimal: " ++ formatWordHex p value));
      st <-- gget;
      maps <-- ask_maps (CMappings (g_process st));
      _ <-- giter (fun m => if map_contains m value then glog (LMapping m) else gret tt) maps;
      gret None).

  (** gdb.py 429-493.  The end of the range, and whether it was limited *)
  Definition hexdump_width (terminal : Z) : Z := Z.max ((terminal - zlen (formatAddress p 1) - 3) / 4) 1.
  Definition ljust (n : Z) (t : text) : text := t ++ repeat " "%char (Z.to_nat (n - zlen t)).
  Definition dump_line (width address : Z) (memory : list byte) : gline :=
    LText (formatAddress p address ++ T "| " ++ ljust (width * 3 - 1) (formatHexa memory) ++ T "| " ++ ljust width (formatAscii memory)).
  Definition read_warning (r : Z * Z) : gline :=
    LText (T "Warning: Unable to read memory " ++ formatAddressRange p (fst r) (snd r)).
  Definition show_error (r : option (Z * Z)) : GM unit := match r with Some r => glog (read_warning r) | None => gret tt end.
  Fixpoint hexdump_loop (fuel : nat) (id : nat) (width address stop : Z) (error : option (Z * Z)) : GM (option (Z * Z)) :=
    if stop <=? address then gret error
    else
      match fuel with
      | O => graise (XErr EDiverges)
      | S fuel =>
          let size := Z.min (stop - address) width in
          r <-- gtry
            (memory <-- ask_bytes (CReadBytes id address size);
             _ <-- show_error error;
             _ <-- glog (dump_line width address memory);
             gret None)
            (fun x =>
               match x with
               | XErr e =>
                   if is_ptrace_error e then
                     gret (match error with None => Some (address, address + size) | Some (a, _) => Some (a, address + size) end)
                   else graise x
               | _ => graise x
               end);
          hexdump_loop fuel id width (address + size) stop r
      end.
  Definition hexdump_range (width start stop : Z) (limited : option Z) : GM (option emsg) :=
    st <-- gget;
    error <-- hexdump_loop (Z.to_nat (stop - start)) (g_process st) width start stop None;
    _ <-- show_error error;
    _ <-- match limited with Some n => glog (LText (T "(limit to " ++ str_int n ++ T " bytes)")) | None => gret tt end;
    gret None.
  Definition hexdump (t : text) : GM (option emsg) :=
    terminal <-- ask_int CTermWidth;
    let width := hexdump_width terminal in
    match split1 " "%char t with
    | Some (t1, t2) =>
        or_message
          (start <-- g_parseInteger t1;
           stop <-- g_parseInteger t2;
           if stop <=? start then graise (XErr EValueError) else gret (start, stop))
          (fun range =>
             let '(start, stop) := range in
             let max_size := width * 20 in
             if max_size <? stop - start then hexdump_range width start (start + max_size) (Some max_size)
             else hexdump_range width start stop None)
    | None =>
        or_message (g_parseInteger t) (fun start => hexdump_range width start (start + 5 * width) None)
    end.

  (** gdb.py 503-515 *)
  Definition where_ (t : text) (manage_bp : bool) : GM (option emsg) :=
    or_message (g_parseIntegers t) (fun values =>
      st <-- gget;
      _ <-- ask_unit (CDumpCode (g_process st) (nth_error values 0) (nth_error values 1) manage_bp);
      gret None).
  (** gdb.py 520-525 *)
  Definition procList : GM unit :=
    l <-- ask_procs CProcesses;
    giter (fun id => st <-- gget; glog (LProcess id (Nat.eqb (g_process st) id))) l.
  (** gdb.py 527-545 *)
  Definition set_ (t : text) : GM (option emsg) :=
    match split1 "="%char t with
    | None => gret (Some (MText (T "Invalid command: " ++ ArgModel.repr_ascii (T "set " ++ t))))
    | Some (key, value) =>
        let key := lower (strip key) in
        if negb (starts_with (T "$") key) then gret (Some (MText (T "Register name (" ++ key ++ T ") have to start with ""$""")))
        else
          let key := skipn 1 key in
          or_message (g_parseInteger value) (fun value =>
            st <-- gget;
            r <-- gtry (_ <-- ask_unit (CSetReg (g_process st) key value); gret None)
                       (fun x => match x with XErr EProcessError => gret (Some (MUnset key value EProcessError)) | x => graise x end);
            match r with
            | Some m => gret (Some m)
            | None => _ <-- glog (LText (T "Set $" ++ key ++ T " to " ++ str_int value)); gret None
            end)
    end.
  (** except PtraceError: h *)
  Definition on_ptrace_error {A} (m : GM A) (h : exn -> GM A) : GM A :=
    gtry m (fun x => match x with XErr e => if is_ptrace_error e then h e else graise x | x => graise x end).
  (** gdb.py 547-556 *)
  Definition displayInstr (prefix : text) : GM unit :=
    st <-- gget;
    on_ptrace_error
      (if has_disassembler then a <-- ask_int (CDisassemble (g_process st)); glog (LInstr prefix a)
       else ask_unit (CDumpCode (g_process st) None None false))
      (fun e => glog (LNoInstr e)).
  (** gdb.py 558-564 *)
  Definition attachProcess (t : text) : GM (option emsg) :=
    or_message (g_parseInteger t) (fun pid => id <-- ask_new (CAddProcess pid); _ <-- switchProcess id; gret None).
  (** gdb.py 688-698; default_size is always None *)
  Definition readInstrSize (address : Z) : GM (option Z) :=
    if negb has_disassembler then gret None
    else
      st <-- gget;
      on_ptrace_error (n <-- ask_int (CInstrSize (g_process st) address); gret (Some n)) (fun e => _ <-- glog (LNoSize address e); gret None).
  (** gdb.py 566-598.  HAS_PTRACE_SINGLESTEP is always true. *)
  Definition step_break (address : Z) : GM nat :=
    size <-- readInstrSize address;
    st <-- gget;
    bp <-- ask_new (CCreateBreakpoint (g_process st) address size);
    _ <-- ask_unit (CCont (g_process st) 0);
    gret bp.
  Definition step_wait (bp : option nat) : GM (option emsg) :=
    st <-- gget;
    gtry
      (_ <-- ask_event (CWait (g_process st) SIGTRAP);
       match bp with
       | Some bp => _ <-- ask_unit (CDesinstall bp true); gret None
       | None => gret None
       end)
      (fun x =>
         match bp with
         | Some bp => _ <-- ask_unit (CDesinstall bp false); graise x
         | None => graise x
         end).
  Definition step (enter_call : bool) (address : option Z) : GM (option emsg) :=
    _ <-- match address with None => displayInstr (T "Execute") | Some _ => gret tt end;
    if negb enter_call then
      match address with
      | None =>
          st <-- gget;
          ip <-- ask_int (CGetIP (g_process st));
          size <-- readInstrSize ip;
          match size with
          | Some n =>
              if n =? 0 then gret (Some (MText (T "Unable to read instruction size at " ++ formatAddress p ip)))
              else bp <-- step_break (ip + n); step_wait (Some bp)
          | None => gret (Some (MText (T "Unable to read instruction size at " ++ formatAddress p ip)))
          end
      | Some a => bp <-- step_break a; step_wait (Some bp)
      end
    else
      st <-- gget;
      _ <-- ask_unit (CStep (g_process st));
      step_wait None.
  (** gdb.py 605-626 (syscallTrace) *)
  Definition syscallTrace : GM (option emsg) :=
    st <-- gget;
    _ <-- ask_unit (CSyscall (g_process st));
    _ <-- ask_event (CWaitSyscall (g_process st));
    a <-- ask (CSyscallEvent (g_process st));
    match a with
    | AText t => _ <-- glog (LText t); gret None
    | AUnit => gret None
    | _ => ill
    end.
  (** gdb.py 628-637 *)
  Definition until (t : text) : GM (option emsg) :=
    or_message (g_parseInteger t) (fun address =>
      m <-- step false (Some address);
      match m with
      | Some m => gret (Some m)
      | None => _ <-- displayInstr (T "Current"); gret None
      end).
  (** gdb.py 673-680 *)
  Definition displayBreakpoints : GM unit :=
    l <-- ask_procs CProcesses;
    (fix loop (l : list nat) (found : bool) : GM unit :=
       match l with
       | [] => if found then gret tt else glog (LText (T "(no breakpoint)"))
       | id :: l =>
           bps <-- ask_procs (CBreakpoints id);
           _ <-- giter (fun bp => glog (LBreakpoint id bp)) bps;
           loop l (found || match bps with [] => false | _ => true end)
       end) l false.
  (** gdb.py 700-714 *)
  Definition breakpoint (t : text) : GM (option emsg) :=
    or_message (g_parseInteger t) (fun address =>
      size <-- readInstrSize address;
      st <-- gget;
      r <-- on_ptrace_error (bp <-- ask_new (CCreateBreakpoint (g_process st) address size); gret (Ok bp)) (fun e => gret (Err e));
      match r with
      | Ok bp => _ <-- glog (LNewBreakpoint bp); gret None
      | Err e => gret (Some (MNoBreak address e))
      end).
  (** gdb.py 716-727 *)
  Definition delete (t : text) : GM (option emsg) :=
    or_message (g_parseInteger t) (fun address =>
      st <-- gget;
      o <-- ask_obj (CFindBreakpoint (g_process st) address);
      match o with
      | None => gret (Some (MText (T "No breakpoint at " ++ formatAddress p address ++ T " ")))
      | Some bp => _ <-- ask_unit (CDesinstall bp false); _ <-- glog (LDeleted bp); gret None
      end).
  (** gdb.py 682-686; "% 2s" *)
  Fixpoint insert_signal (x : Z * text) (l : list (Z * text)) : list (Z * text) :=
    match l with
    | [] => [x]
    | y :: l => if fst x <=? fst y then x :: y :: l else y :: insert_signal x l
    end.
  Definition displaySignals : GM unit :=
    giter (fun x => glog (LText (padl 2 " "%char (str_int (fst x)) ++ T ": " ++ snd x))) (fold_right insert_signal [] (getSignalNames ns)).
  (** gdb.py 262-275 *)
  Definition addFollowTerm (t : text) : GM (option emsg) :=
    term <-- ask_bytes (CEvalBytes (lstrip t));
    _ <-- gmodify (fun st => set_follow (g_follow st ++ [term]) st);
    gret None.

  (** gdb.py 754-774 *)
  Definition interrupt : GM unit :=
    l <-- ask_procs CProcesses;
    waitlist <-- (fix loop (l waitlist : list nat) : GM (list nat) :=
       match l with
       | [] => gret (rev waitlist)
       | id :: l =>
           stopped <-- ask_bool (CIsStopped id);
           if stopped : bool then loop l waitlist
           else
             traced <-- gtry (ask_bool (CIsTraced id)) (fun x => match x with XErr ENotImplementedError => gret false | x => graise x end);
             if traced : bool then loop l waitlist
             else
               _ <-- glog (LSendInt id);
               _ <-- ask_unit (CKill id 2);
               loop l (id :: waitlist)
       end) l [];
    giter (fun id =>
      _ <-- glog (LWaitInt id);
      gtry (_ <-- ask_event (CWait id 2); gret tt)
           (fun x => match x with
                     | XEvent (ProcessSignal s q) => ask_unit (CDisplay (ProcessSignal s q))
                     | XErr EKeyboardInterrupt => gret tt
                     | x => graise x
                     end)) waitlist.
  (** gdb.py 776-784 *)
  Definition deleteProcess (pid : Z) : GM unit :=
    o <-- ask_obj (CLookup pid);
    match o with
    | None => gret tt
    | Some id =>
        ev <-- ask_event (CTerminated id);
        _ <-- glog (LEvent ev);
        st <-- gget;
        if Nat.eqb id (g_process st) then nextProcess else gret tt
    end.
  (** gdb.py 786-788 *)
  Definition restoreTerminal : GM unit :=
    b <-- ask_bool CEcho;
    if b : bool then glog (LText (T "Terminal: restore echo mode")) else gret tt.

  (** Python 3: open(path, mode, buffering).  io.open() opens the file, and then refuses a text file without buffer. *)
  Definition py_open (path mode : text) (buffering : Z) : GM unit :=
    _ <-- ask_unit (COpen path mode);
    if (buffering =? 0) && negb (char_in mode "b"%char) then graise (XErr EValueError) else gret tt.
  (** gdb.py 409-427; str(process): process.py 767-771.  The loop over the mappings is one call. *)
  Definition gcore : GM unit :=
    st <-- gget;
    let id := g_process st in
    pid <-- ask_int (CPid id);
    let childPid := removelast (last (split_char "#"%char (T "<PtraceProcess #" ++ str_int pid ++ T ">")) []) in
    _ <-- py_open (T "/proc/" ++ childPid ++ T "/maps") (T "r") (-1);
    _ <-- py_open (T "/proc/" ++ childPid ++ T "/mem") (T "r") 0;
    a <-- ask CArgv1;
    match a with
    | AText name => _ <-- py_open (T "/vmdump/" ++ name ++ T ".dump") (T "wb") (-1); ask_unit (CCopyRegions id)
    | _ => ill
    end.

  (** gdb.py 729-736 *)
  Definition help : GM unit :=
    _ <-- giter (fun c => glog (LText (fst c ++ T ": " ++ snd c))) COMMANDS;
    _ <-- glog (LText []);
    _ <-- glog (LText (T "Value can be an hexadecimal/decimal number or a register name ($reg)"));
    _ <-- glog (LText (T "You can use operators a+b, a-b, a*b, a/b, a<<b, a>>b, a**b, and parenthesis in expressions"));
    glog (LText (T "Use "";"" to write multiple commands on the same line (e.g. ""step; print $eax"")")).

  (** gdb.py 298-365 *)
  Definition none (m : GM unit) : GM (option emsg) := _ <-- m; gret None.
  Definition dump (what : string) : GM (option emsg) := st <-- gget; none (ask_unit (CDump (T what) (g_process st))).
  Definition run (c : command) : GM (option emsg) :=
    match c with
    | KCont => gdb_cont 0
    | KProc => dump "proc"
    | KProclist => none procList
    | KAttach t => attachProcess t
    | KRegs => dump "regs"
    | KStack => dump "stack"
    | KGcore => none gcore
    | KBacktrace => dump "backtrace"
    | KWhere t => where_ t false
    | KWhere2 t => where_ t true
    | KMaps => dump "maps"
    | KDbginfo => dump "dbginfo"
    | KStep => step false None
    | KStepi => step true None
    | KSys => syscallTrace
    | KHelp => none help
    | KSet t => set_ t
    | KUntil t => until t
    | KSwitch t => switch t
    | KBreak t => breakpoint t
    | KBreakpoints => none displayBreakpoints
    | KSignals => none displaySignals
    | KDelete t => delete t
    | KHexdump t => hexdump t
    | KSignal t => gdb_signal t
    | KPrint t => print_ t
    | KFollow t => addFollowTerm t
    | KShowfollow => dump "showfollow"
    | KResetfollow => none (gmodify (set_follow []))
    | KXray => st <-- gget; none (ask_unit (CXray (g_follow st)))
    | KUnknown t => gret (Some (MText (T "Unknown command: " ++ ArgModel.repr_ascii t)))
    end.
  Definition execute (c : text) : GM bool :=
    m <-- run (dispatch c);
    match m with
    | Some m => _ <-- glog (LErrmsg m); gret false
    | None => gret true
    end.

  (** gdb.py 790-847 *)
  Definition is_exception (x : dexn) : bool := match x with XErr (EKeyboardInterrupt | ESystemExit _ | EUndefined | EDiverges) => false | _ => true end.
  Fixpoint execute_all (commands : list text) : GM bool :=
    match commands with
    | [] => gret true
    | c :: commands =>
        ok <-- gtry (execute (strip c)) (fun x => if is_exception x then _ <-- glog (LCommandError x); graise x else graise x);
        if ok : bool then execute_all commands else gret false
    end.
  Definition handle (x : dexn) : GM unit :=
    match x with
    | XErr EKeyboardInterrupt => interrupt
    | XEvent (NewProcessEvent id) => glog (LNew id)
    | XEvent (ProcessSignal s id) => processSignal s id
    | XEvent (ProcessExit id s c) => _ <-- glog (LEvent (ProcessExit id s c)); nextProcess
    | XEvent (ProcessExecution id) => _ <-- glog (LEvent (ProcessExecution id)); _ <-- switchProcess id; interrupt
    | XErr e =>
        if is_ptrace_error e then
          _ <-- glog (LPtraceError e);
          match e with
          | EPtraceError (Some n) => if n =? ESRCH then pid <-- ask_int (CErrorPid e); deleteProcess pid else gret tt
          | _ => gret tt
          end
        else graise x
    end.
  Definition run_line (line : text) : GM bool :=
    _ <-- gmodify (set_previous None);
    if text_eqb line (T "quit") then gret true
    else
      gtry
        (ok <-- execute_all (split_char ";"%char line);
         _ <-- (if ok : bool then gmodify (set_previous (Some line)) else gret tt);
         gret false)
        (fun x => _ <-- handle x; gret false).
  Inductive input : Type := ILine (t : text) | IEof | IInterrupt.
  Definition read_input : GM input :=
    gtry
      (_ <-- restoreTerminal;
       a <-- ask CInput;
       match a with
       | AText t => gret (ILine (strip t))
       | AEof => gret IEof
       | _ => ill
       end)
      (fun x => match x with XErr EKeyboardInterrupt => gret IInterrupt | x => graise x end).
  Definition mainLoop : GM bool :=
    i <-- read_input;
    match i with
    | IEof => gret true
    | IInterrupt => _ <-- glog (LText (T "User interrupt!")); _ <-- interrupt; gret false
    | ILine [] =>
        st <-- gget;
        match g_previous st with
        | Some (c :: l) => run_line (c :: l)
        | _ => gret false
        end
    | ILine line => run_line line
    end.
  (** gdb.py 849-870: the loop *)
  Fixpoint session (fuel : nat) : GM unit :=
    match fuel with
    | O => graise (XErr EDiverges)
    | S fuel =>
        l <-- ask_procs CProcesses;
        match l with
        | [] => gret tt
        | _ => done <-- mainLoop; if done : bool then gret tt else session fuel
        end
    end.
  (** gdb.py 849-870, 872-883.  [CStart]: setupDebugger() and createProcess(), which gives None after an error; the exit()
      of setupDebugger() is an answer [ESystemExit]. *)
  Definition runDebugger (fuel : nat) : GM unit :=
    o <-- gtry (ask_obj CStart)
               (fun x => match x with XErr EChildError => _ <-- glog (LText (T "Unable to create child process")); gret None | x => graise x end);
    match o with
    | None => gret tt
    | Some id => _ <-- gmodify (set_process id); _ <-- gmodify (set_previous None); session fuel
    end.
  Definition gdb_main (fuel : nat) : GM unit :=
    _ <-- gtry (runDebugger fuel)
               (fun x => match x with
                         | XErr EKeyboardInterrupt => glog (LText (T "Interrupt debugger: quit!"))
                         | x => if is_exception x then glog (LDebuggerError x) else graise x
                         end);
    _ <-- ask_unit CQuit;
    _ <-- glog (LText (T "Quit gdb."));
    restoreTerminal.
End Gdb.
