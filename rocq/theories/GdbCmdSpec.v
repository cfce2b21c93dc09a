(** * GdbCmdSpec: what the commands of gdb.py do, call by call.  Independent of the model, except for its calls and lines. *)
From Coq Require Import ZArith List Ascii String Bool.
From Verif Require Import PyBase Platform IntModel DbgModel PyEval ExprModel GdbModel GdbSpec.
Import ListNotations.
Open Scope Z_scope.

(** The environment answers a call always in the same way. *)
Definition answers (env : list (gcall * ans) -> gcall -> ans) (c : gcall) (a : ans) : Prop := forall h, env h c = a.
(** The program makes these calls, the oldest first, and nothing else changes. *)
Definition does {A} (m : GM A) (st : gstate) (calls : list (gcall * ans)) (r : out A) : Prop :=
  exists st', m st = (st', r) /\ g_hist st' = rev calls ++ g_hist st /\ same st st'.
(** The same, the current process becomes [q]. *)
Definition does_and_switches {A} (m : GM A) (st : gstate) (calls : list (gcall * ans)) (q : nat) (r : out A) : Prop :=
  exists st', m st = (st', r) /\ g_hist st' = rev calls ++ g_hist st /\ g_process st' = q /\ rest_same st st'.
Definition line (l : gline) : gcall * ans := (CLog l, AUnit).
Definition says (t : text) : gcall * ans := line (LText t).

(** The commands that only show something about the current process *)
Definition shows : list string := ["proc"; "regs"; "stack"; "backtrace"; "maps"; "dbginfo"; "showfollow"]%string.
(** The instruction to be executed, or executed, is shown: by the disassembler, else as a dump of the code *)
Definition shows_code (dis : bool) (st : gstate) (prefix : string) (ip : Z) : list (gcall * ans) :=
  if dis then [(CDisassemble (g_process st), AInt ip); line (LInstr (T prefix) ip)] else [(CDumpCode (g_process st) None None false, AUnit)].
(** The size of the instruction at an address is asked if there is a disassembler. *)
Definition asks_size (dis : bool) (st : gstate) (address : Z) (size : option Z) : list (gcall * ans) :=
  if dis then [(CInstrSize (g_process st) address, AInt (match size with Some n => n | None => 0 end))] else [].
Definition size_of (dis : bool) (n : Z) : option Z := if dis then Some n else None.
(** A breakpoint is set, the process runs to it, the breakpoint is removed and the instruction pointer goes back to it. *)
Definition runs_to (dis : bool) (st : gstate) (address size : Z) (bp : nat) (ev : event) : list (gcall * ans) :=
  asks_size dis st address (Some size) ++
  [(CCreateBreakpoint (g_process st) address (size_of dis size), AObj (Some bp)); (CCont (g_process st) 0, AUnit);
   (CWait (g_process st) 5, AEvent ev); (CDesinstall bp true, AUnit)].
(** A line of the list of the signals *)
Definition signal_line (x : Z * text) : text := (if fst x <? 10 then T " " else []) ++ digits 10 (fst x) ++ T ": " ++ snd x.
(** In ascending order *)
Inductive ascending : list (Z * text) -> Prop :=
| asc_nil : ascending []
| asc_cons x l : (forall y, In y l -> fst x <= fst y) -> ascending l -> ascending (x :: l).
(** The integers that a text denotes for the user *)
Definition parse_list (p : platform) (eval : text -> res pyval) (env : list (gcall * ans) -> gcall -> ans) (st : gstate) (t : text) : res (list Z) :=
  parseIntegers p eval (fun name => peek env (g_hist st) (CGetReg (g_process st) name)) (fun a => peek env (g_hist st) (CReadWord (g_process st) a)) t.
(** Where the breakpoint is that stopped a process: before the byte of the instruction INT 3, on PowerPC at the instruction *)
Definition stopped_at (p : platform) (ip : Z) : Z := if is_powerpc (p_cpu p) then ip else ip - 1.
(** What the help says about the commands *)
Definition help_texts : list (string * string) :=
  [("cont", "continue execution");
   ("step", "execute one instruction (do not enter in a call)");
   ("stepi", "execute one instruction (enter the call)");
   ("until", "execute code until specified address (until <address>)");
   ("set", "set register value (set <register>=<value>)");
   ("sys", "continue execution to next syscall");
   ("signal", "send a signal to the process (signal <signum>)");
   ("signals", "display signals");
   ("regs", "display registers");
   ("where", "display true code content (show breakpoints effects on code). e.g. 'where $eip', 'where $eip $eip+20'");
   ("print", "display a value (print <value>)");
   ("hexdump", "dump memory as specified address or address range (hexdump <address> or hexdump <start> <stop>)");
   ("gcore", "generate core file of the process");
   ("where2", "display original code content (don't show effects of breakpoint on code)");
   ("stack", "display stack content");
   ("backtrace", "dump the backtrace");
   ("proc", "display process information");
   ("maps", "display memory mappings");
   ("break", "set a breakpoint (break <address>)");
   ("breakpoints", "display breakpoints");
   ("delete", "delete a breakpoint (delete <address>)");
   ("attach", "attach a new process (e.g. ""attach 2390"")");
   ("proclist", "list of traced processes");
   ("switch", "switch active process (switch or switch <pid>)");
   ("follow", "follow a term (e.g. ""follow '\x12\x14\x27\x13'"")");
   ("showfollow", "show all ""followed"" terms");
   ("resetfollow", "reset all ""followed"" terms");
   ("xray", "show addresses of (and possible pointers to) ""followed"" terms");
   ("dbginfo", "information about the debugger");
   ("quit", "quit debugger");
   ("help", "display this help")]%string.
