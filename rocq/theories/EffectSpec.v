(** * EffectSpec: what a command of gdb.py may do to the traced processes. *)
From Coq Require Import ZArith List Ascii String Bool.
From Verif Require Import PyBase SigModel DbgModel GdbModel.
Import ListNotations.
Open Scope Z_scope.

(** Calls and their answers, the latest first *)
Definition history : Type := list (gcall * ans).
(** The call only looks at the process [cur] (or lists processes and breakpoints), or tells something to the user. *)
Definition looks (cur : nat) (c : gcall) : Prop :=
  match c with
  | CLog _ | CTermWidth | CProcesses | CLookup _ | CDisplay _ | CBreakpoints _ | CXray _ => True
  | CGetIP id | CReadBytes id _ _ | CMappings id | CFindBreakpoint id _ | CInstrSize id _ | CDisassemble id
  | CDumpCode id _ _ _ | CDump _ id | CPid id => id = cur
  | COpen _ mode => mode = T "r"
  | _ => False
  end.
(** The processes that were resumed *)
Definition resumes (c : gcall) : list nat := match c with CCont id _ | CStep id | CSyscall id => [id] | _ => [] end.
Definition resumed (h : history) : list nat := flat_map (fun x => resumes (fst x)) h.

Definition is_cont (k : command) : Prop := match k with KCont | KSignal _ => True | _ => False end.
Definition is_step (k : command) : Prop := match k with KStep | KUntil _ => True | _ => False end.
(** [may cur h k c]: while [cur] is the current process, the command [k] that has made the calls [h] may make the call [c]. *)
Inductive may (cur : nat) (h : history) : command -> gcall -> Prop :=
| may_look : forall k c, looks cur c -> may cur h k c
(* cont, signal: resume each process once, wait, and remove the breakpoint found in the current process *)
| may_clear : forall k l id, is_cont k -> In (CProcesses, AProcs l) h -> In id l -> may cur h k (CClear id)
| may_cont : forall k l id s, is_cont k -> In (CProcesses, AProcs l) h -> In id l -> (NoDup l -> ~ In id (resumed h)) -> may cur h k (CCont id s)
| may_wait : forall k, is_cont k -> may cur h k CWaitSignals
| may_hit : forall k a bp, is_cont k -> In (CFindBreakpoint cur a, AObj (Some bp)) h -> may cur h k (CDesinstall bp true)
(* step, until: set a breakpoint, resume the current process once, wait for it and remove this breakpoint *)
| may_trap : forall k a size, is_step k -> resumed h = [] -> may cur h k (CCreateBreakpoint cur a size)
| may_run : forall k, is_step k -> resumed h = [] -> may cur h k (CCont cur 0)
| may_run_wait : forall k, is_step k -> may cur h k (CWait cur SIGTRAP)
| may_untrap : forall k a size bp ip, is_step k -> In (CCreateBreakpoint cur a size, AObj (Some bp)) h -> may cur h k (CDesinstall bp ip)
(* stepi, sys *)
| may_stepi : resumed h = [] -> may cur h KStepi (CStep cur)
| may_stepi_wait : may cur h KStepi (CWait cur SIGTRAP)
| may_sys : resumed h = [] -> may cur h KSys (CSyscall cur)
| may_sys_wait : may cur h KSys (CWaitSyscall cur)
| may_sys_show : may cur h KSys (CSyscallEvent cur)
(* set, break, delete, attach, follow *)
| may_set : forall t name v, may cur h (KSet t) (CSetReg cur name v)
| may_break : forall t a size, may cur h (KBreak t) (CCreateBreakpoint cur a size)
| may_delete : forall t a bp, In (CFindBreakpoint cur a, AObj (Some bp)) h -> may cur h (KDelete t) (CDesinstall bp false)
| may_attach : forall t pid, may cur h (KAttach t) (CAddProcess pid)
| may_eval : forall t, may cur h (KFollow t) (CEvalBytes (lstrip t)).
(** Every call was allowed when it was made. *)
Fixpoint lawful (cur : nat) (k : command) (h : history) : Prop :=
  match h with [] => True | (c, _) :: h => may cur h k c /\ lawful cur k h end.

(** The commands that only show something *)
Definition looking (k : command) : bool :=
  match k with
  | KProc | KProclist | KRegs | KStack | KGcore | KBacktrace | KWhere _ | KWhere2 _ | KMaps | KDbginfo | KHelp | KSwitch _
  | KBreakpoints | KSignals | KHexdump _ | KPrint _ | KShowfollow | KResetfollow | KXray | KUnknown _ => true
  | _ => false
  end.
(** What a command may change in the debugger: the current process, the signals to deliver, the followed terms *)
Definition changes_process (k : command) : bool := match k with KCont | KSignal _ | KSwitch _ | KAttach _ => true | _ => false end.
Definition changes_signals (k : command) : bool := match k with KCont | KSignal _ => true | _ => false end.
Definition changes_terms (k : command) : bool := match k with KFollow _ | KResetfollow => true | _ => false end.
