(** * GdbEventProps: theorems about the events and the errors that stop a command of gdb.py (C122). *)
From Coq Require Import ZArith List Ascii String Bool.
From Verif Require Import PyBase Platform IntModel ToolsModel SigModel DbgModel MapModel TraceModel PyEval ExprModel GdbModel GdbSpec GdbCmdSpec GdbCmdProps GdbEventSpec GdbEventProofs.
Import ListNotations.
Open Scope Z_scope.

(** ** C122 *)
(** The end of a process: it is told, and the first of the remaining processes becomes the current one. *)
Theorem c122_exit : forall env st id s c l, answers env CProcesses (AProcs l) ->
  does_and_switches (handle env (XEvent (ProcessExit id s c))) st (line (LEvent (ProcessExit id s c)) :: next_one (g_process st) l) (first_of (g_process st) l) (Ret tt).
Proof. exact handle_exit. Qed.
Print Assumptions c122_exit.
(** A new process is only told: the current process stays. *)
Theorem c122_new : forall env st id, does (handle env (XEvent (NewProcessEvent id))) st [line (LNew id)] (Ret tt).
Proof. exact handle_new. Qed.
Print Assumptions c122_new.
(** A signal is explained, its process becomes the current one, and the signal is remembered for it. *)
Theorem c122_signal : forall env st id s, answers env (CDisplay (ProcessSignal s id)) AUnit ->
  exists st', handle env (XEvent (ProcessSignal s id)) st = (st', Ret tt) /\
    g_hist st' = rev ((CDisplay (ProcessSignal s id), AUnit) :: tells_switch (g_process st) id ++ [line (LInterrupted id s)]) ++ g_hist st /\
    g_process st' = id /\ g_last st' = dset Nat.eqb id s (g_last st) /\ g_follow st' = g_follow st /\ g_previous st' = g_previous st.
Proof. exact handle_signal. Qed.
Print Assumptions c122_signal.
(** An execution is told, its process becomes the current one, and then all processes are interrupted. *)
Theorem c122_execution : forall env st id, exists st1, g_hist st1 = rev (line (LEvent (ProcessExecution id)) :: tells_switch (g_process st) id) ++ g_hist st /\
  g_process st1 = id /\ rest_same st st1 /\ handle env (XEvent (ProcessExecution id)) st = interrupt env st1.
Proof. exact handle_execution. Qed.
Print Assumptions c122_execution.
(** A ptrace error is only told, unless the process does not exist. *)
Theorem c122_error : forall env st e, is_ptrace_error e = true -> e <> no_such_process -> does (handle env (XErr e)) st [line (LPtraceError e)] (Ret tt).
Proof. exact handle_error. Qed.
Print Assumptions c122_error.
(** A process that does not exist any more is declared dead, and if it was the current one, the first of the remaining processes becomes the current one. *)
Theorem c122_gone : forall env st pid id ev l, answers env (CErrorPid no_such_process) (AInt pid) -> answers env (CLookup pid) (AObj (Some id)) -> answers env (CTerminated id) (AEvent ev) ->
  answers env CProcesses (AProcs l) ->
  does_and_switches (handle env (XErr no_such_process)) st
    ([line (LPtraceError no_such_process); (CErrorPid no_such_process, AInt pid); (CLookup pid, AObj (Some id)); (CTerminated id, AEvent ev); line (LEvent ev)] ++
     (if Nat.eq_dec id (g_process st) then next_one (g_process st) l else []))
    (if Nat.eq_dec id (g_process st) then first_of (g_process st) l else g_process st) (Ret tt).
Proof. exact handle_gone. Qed.
Print Assumptions c122_gone.
Theorem c122_gone_unknown : forall env st pid, answers env (CErrorPid no_such_process) (AInt pid) -> answers env (CLookup pid) (AObj None) ->
  does (handle env (XErr no_such_process)) st [line (LPtraceError no_such_process); (CErrorPid no_such_process, AInt pid); (CLookup pid, AObj None)] (Ret tt).
Proof. exact handle_gone_unknown. Qed.
Print Assumptions c122_gone_unknown.
(** Any other error goes on, except for the interruption by the user. *)
Theorem c122_other : forall env st e, is_ptrace_error e = false -> e <> EKeyboardInterrupt -> handle env (XErr e) st = (st, Raise (XErr e)).
Proof. exact handle_other. Qed.
Print Assumptions c122_other.
Theorem c122_keyboard : forall env st, handle env (XErr EKeyboardInterrupt) st = interrupt env st.
Proof. exact handle_interrupt. Qed.
Print Assumptions c122_keyboard.
(** An interruption that cannot find out whether a process is traced interrupts nobody. *)
Theorem c122_traced : forall env st q l x, answers env CProcesses (AProcs (q :: l)) -> answers env (CIsStopped q) (ABool false) -> answers env (CIsTraced q) (ARaise x) ->
  x <> XErr ENotImplementedError ->
  does (interrupt env) st [(CProcesses, AProcs (q :: l)); (CIsStopped q, ABool false); (CIsTraced q, ARaise x)] (Raise x).
Proof. exact interrupt_error. Qed.
Print Assumptions c122_traced.
Example c122_ex : let run x := handle (fun h c => match c with CErrorPid _ => AInt 77 | CLookup 77 => AObj (Some 2%nat) | CTerminated q => AEvent (ProcessExit q None (Some 0)) | CIsTraced _ => ARaise (XErr EProcessError) | CIsStopped _ => ABool false | c => ex_env h c end) x in
  let at_two := GState 2 [(1%nat, 11)] [] None [] in
  let calls r := map fst (rev (g_hist (fst r))) in
  calls (run (XEvent (ProcessExit 2 (Some 9) None)) at_two) = [CLog (LEvent (ProcessExit 2 (Some 9) None)); CProcesses; CLog (LSwitch 0)] /\
  calls (run (XErr no_such_process) at_two) = [CLog (LPtraceError no_such_process); CErrorPid no_such_process; CLookup 77; CTerminated 2; CLog (LEvent (ProcessExit 2 None (Some 0))); CProcesses; CLog (LSwitch 0)] /\
  calls (run (XErr no_such_process) ex_state) = [CLog (LPtraceError no_such_process); CErrorPid no_such_process; CLookup 77; CTerminated 2; CLog (LEvent (ProcessExit 2 None (Some 0)))] /\
  g_last (fst (run (XEvent (ProcessSignal 12 1)) at_two)) = [(1%nat, 12)] /\
  run (XErr EKeyboardInterrupt) at_two = (fst (run (XErr EKeyboardInterrupt) at_two), Raise (XErr EProcessError)).
Proof. vm_compute. auto 10. Qed.
(** The instruction that cannot be read: the error is told, and the command goes on as far as it can without the size. *)
Theorem c122_step_zero : forall p ns dis eval env st ip shown, dis = true -> answers env (CDisassemble (g_process st)) (AInt shown) -> answers env (CGetIP (g_process st)) (AInt ip) ->
  answers env (CInstrSize (g_process st) ip) (AInt 0) ->
  does (run p ns dis eval env (dispatch (T "step"))) st (shows_code dis st "Execute" shown ++ [(CGetIP (g_process st), AInt ip)] ++ asks_size dis st ip (Some 0))
    (Ret (Some (MText (T "Unable to read instruction size at " ++ formatAddress p ip)))).
Proof. exact step_zero. Qed.
Print Assumptions c122_step_zero.
Theorem c122_step_error : forall p ns dis eval env st ip shown e, dis = true -> answers env (CDisassemble (g_process st)) (AInt shown) -> answers env (CGetIP (g_process st)) (AInt ip) ->
  answers env (CInstrSize (g_process st) ip) (ARaise (XErr e)) -> is_ptrace_error e = true ->
  does (run p ns dis eval env (dispatch (T "step"))) st (shows_code dis st "Execute" shown ++ [(CGetIP (g_process st), AInt ip); (CInstrSize (g_process st) ip, ARaise (XErr e)); line (LNoSize ip e)])
    (Ret (Some (MText (T "Unable to read instruction size at " ++ formatAddress p ip)))).
Proof. exact step_error. Qed.
Print Assumptions c122_step_error.
Theorem c122_break_error : forall p ns dis eval env st t a e bp, parse p eval env st t = Ok a -> dis = true -> answers env (CInstrSize (g_process st) a) (ARaise (XErr e)) -> is_ptrace_error e = true ->
  answers env (CCreateBreakpoint (g_process st) a None) (AObj (Some bp)) ->
  does (run p ns dis eval env (dispatch (T "break " ++ t))) st
    [(CInstrSize (g_process st) a, ARaise (XErr e)); line (LNoSize a e); (CCreateBreakpoint (g_process st) a None, AObj (Some bp)); line (LNewBreakpoint bp)] (Ret None).
Proof. exact break_error. Qed.
Print Assumptions c122_break_error.
Theorem c122_instr_error : forall (dis : bool) env st prefix e, answers env (if dis then CDisassemble (g_process st) else CDumpCode (g_process st) None None false) (ARaise (XErr e)) -> is_ptrace_error e = true ->
  does (displayInstr dis env prefix) st [(if dis then CDisassemble (g_process st) else CDumpCode (g_process st) None None false, ARaise (XErr e)); line (LNoInstr e)] (Ret tt).
Proof. exact instr_error. Qed.
Print Assumptions c122_instr_error.
(** An event before the address of "until" is reached: the breakpoint is removed, the instruction pointer stays, and the event goes on. *)
Theorem c122_until_event : forall p ns dis eval env st t a n bp x, parse p eval env st t = Ok a -> (dis = true -> answers env (CInstrSize (g_process st) a) (AInt n)) ->
  answers env (CCreateBreakpoint (g_process st) a (size_of dis n)) (AObj (Some bp)) -> answers env (CCont (g_process st) 0) AUnit ->
  answers env (CWait (g_process st) 5) (ARaise x) -> answers env (CDesinstall bp false) AUnit ->
  does (run p ns dis eval env (dispatch (T "until " ++ t))) st (asks_size dis st a (Some n) ++
    [(CCreateBreakpoint (g_process st) a (size_of dis n), AObj (Some bp)); (CCont (g_process st) 0, AUnit); (CWait (g_process st) 5, ARaise x); (CDesinstall bp false, AUnit)]) (Raise x).
Proof. exact until_event. Qed.
Print Assumptions c122_until_event.
Example c122_step_ex : let run t := run linux_x86_64 linux_signals true py_eval (fun h c => match c with CInstrSize _ 4096 => ARaise (XErr (EPtraceError (Some 5))) | CWait _ _ => ARaise (XEvent (ProcessExit 0 None (Some 1))) | c => ex_env h c end) (dispatch (T t)) ex_state in
  snd (run "step"%string) = Ret (Some (MText (T "Unable to read instruction size at 0x0000000000001000"))) /\
  calls (run "break 4096"%string) = [CInstrSize 0 4096; CLog (LNoSize 4096 (EPtraceError (Some 5))); CCreateBreakpoint 0 4096 None; CLog (LNewBreakpoint 7)] /\
  calls (run "until 16"%string) = [CInstrSize 0 16; CCreateBreakpoint 0 16 (Some 2); CCont 0 0; CWait 0 5; CDesinstall 7 false] /\
  snd (run "until 16"%string) = Raise (XEvent (ProcessExit 0 None (Some 1))).
Proof. vm_compute. auto 10. Qed.
