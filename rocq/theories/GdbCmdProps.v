(** * GdbCmdProps: theorems about the single commands of gdb.py (C107). *)
From Coq Require Import ZArith List Ascii String Bool Lia Arith Permutation.
From Verif Require Import PyBase PyFacts Platform IntModel SigModel DbgModel MapModel TraceModel PyEval ExprModel GdbModel GdbSpec GdbCmdSpec GdbCmdProofs.
Import ListNotations.
Open Scope Z_scope.

(** ** C107 *)
(** The environment of the examples: a process with the breakpoints 3 and 4 and a process without breakpoints *)
Definition ex_env (h : list (gcall * ans)) (c : gcall) : ans :=
  match c with
  | CProcesses => AProcs [0; 1]%nat
  | CBreakpoints 0%nat => AProcs [3; 4]%nat
  | CBreakpoints _ => AProcs []
  | CFindBreakpoint _ a => AObj (if a =? 4095 then Some 3%nat else None)
  | CWaitSignals => AEvent (ProcessSignal 5 1)
  | CWait q s => AEvent (ProcessSignal s q)
  | CWaitSyscall q => AEvent (ProcessSignal 5 q)
  | CSyscallEvent q => AText (T "getpid()")
  | CGetIP _ => AInt 4096
  | CDisassemble _ => AInt 4096
  | CInstrSize _ a => AInt (if a =? 4096 then 3 else 2)
  | CCreateBreakpoint _ a _ => if a =? 8192 then ARaise (XErr (EPtraceError (Some 3))) else AObj (Some 7%nat)
  | CAddProcess _ => AObj (Some 9%nat)
  | CMappings _ => AMaps []
  | CEcho => ABool false
  | CInput => AEof
  | CStart => ARaise (XErr EChildError)
  | _ => AUnit
  end.
Definition ex_state : gstate := GState 0 [] [] None [].
Definition calls (r : gstate * out (option emsg)) : list gcall := map fst (rev (g_hist (fst r))).
Definition ex_run (t : string) : gstate * out (option emsg) := run linux_x86_64 linux_signals true py_eval ex_env (dispatch (T t)) ex_state.

(** proc, regs, stack, backtrace, maps, dbginfo, showfollow: exactly that is shown, for the current process. *)
Theorem c107_shows : forall p ns dis eval env w st, In w shows -> answers env (CDump (T w) (g_process st)) AUnit ->
  does (run p ns dis eval env (dispatch (T w))) st [(CDump (T w) (g_process st), AUnit)] (Ret None).
Proof. exact dump_does. Qed.
Print Assumptions c107_shows.
(** where and where2: the code between the two addresses that are given, or one of them, or none. *)
Theorem c107_where : forall p ns dis eval env t st values, parse_list p eval env st t = Ok values ->
  answers env (CDumpCode (g_process st) (nth_error values 0) (nth_error values 1) false) AUnit ->
  does (run p ns dis eval env (dispatch (T "where " ++ t))) st [(CDumpCode (g_process st) (nth_error values 0) (nth_error values 1) false, AUnit)] (Ret None).
Proof. exact where_line. Qed.
Print Assumptions c107_where.
Theorem c107_where2 : forall p ns dis eval env t st values, parse_list p eval env st t = Ok values ->
  answers env (CDumpCode (g_process st) (nth_error values 0) (nth_error values 1) true) AUnit ->
  does (run p ns dis eval env (dispatch (T "where2 " ++ t))) st [(CDumpCode (g_process st) (nth_error values 0) (nth_error values 1) true, AUnit)] (Ret None).
Proof. exact where2_line. Qed.
Print Assumptions c107_where2.
Theorem c107_where_here : forall p ns dis eval env st, answers env (CDumpCode (g_process st) None None false) AUnit ->
  does (run p ns dis eval env (dispatch (T "where"))) st [(CDumpCode (g_process st) None None false, AUnit)] (Ret None).
Proof. exact where_empty. Qed.
Print Assumptions c107_where_here.
Theorem c107_where2_here : forall p ns dis eval env st, answers env (CDumpCode (g_process st) None None true) AUnit ->
  does (run p ns dis eval env (dispatch (T "where2"))) st [(CDumpCode (g_process st) None None true, AUnit)] (Ret None).
Proof. exact where2_empty. Qed.
Print Assumptions c107_where2_here.
Example c107_shows_ex : calls (ex_run "regs") = [CDump (T "regs") 0] /\ calls (ex_run "where 0x10 0x20") = [CDumpCode 0 (Some 16) (Some 32) false] /\
  calls (ex_run "where2") = [CDumpCode 0 None None true].
Proof. vm_compute. auto. Qed.
(** proclist: one line for each process, the current one is marked. *)
Theorem c107_proclist : forall p ns dis eval env st l, answers env CProcesses (AProcs l) ->
  does (run p ns dis eval env (dispatch (T "proclist"))) st ((CProcesses, AProcs l) :: map (fun q => line (LProcess q (Nat.eqb (g_process st) q))) l) (Ret None).
Proof. exact proclist_does. Qed.
Print Assumptions c107_proclist.
(** print: the value in decimal and hexadecimal, and the mappings that contain it. *)
Theorem c107_print : forall p ns dis eval env t v st maps, parse p eval env st t = Ok v -> answers env (CMappings (g_process st)) (AMaps maps) ->
  does (run p ns dis eval env (dispatch (T "print " ++ t))) st
    ([says (T "Decimal: " ++ str_int v); says (T "Hexadecimal: " ++ formatWordHex p v); (CMappings (g_process st), AMaps maps)] ++
     map (fun m => line (LMapping m)) (filter (fun m => map_contains m v) maps)) (Ret None).
Proof. exact print_does. Qed.
Print Assumptions c107_print.
(** breakpoints: all the breakpoints of all the processes, and a line that says so if there is none. *)
Theorem c107_breakpoints : forall p ns dis eval env st l bps, answers env CProcesses (AProcs l) -> (forall q, answers env (CBreakpoints q) (AProcs (bps q))) ->
  does (run p ns dis eval env (dispatch (T "breakpoints"))) st
    ((CProcesses, AProcs l) :: flat_map (fun q => (CBreakpoints q, AProcs (bps q)) :: map (fun b => line (LBreakpoint q b)) (bps q)) l ++
     (if forallb (fun q => match bps q with [] => true | _ => false end) l then [says (T "(no breakpoint)")] else [])) (Ret None).
Proof. exact breakpoints_does. Qed.
Print Assumptions c107_breakpoints.
(** signals: one line for each signal, in the order of the numbers. *)
Theorem c107_signals : forall p ns dis eval env st, (forall n name, In (n, name) (getSignalNames ns) -> 0 <= n) ->
  exists l, Permutation (getSignalNames ns) l /\ ascending l /\
    does (run p ns dis eval env (dispatch (T "signals"))) st (map (fun x => says (signal_line x)) l) (Ret None).
Proof. exact signals_does. Qed.
Print Assumptions c107_signals.
Example c107_lists_ex : calls (ex_run "breakpoints") = [CProcesses; CBreakpoints 0; CLog (LBreakpoint 0 3); CLog (LBreakpoint 0 4); CBreakpoints 1] /\
  calls (ex_run "proclist") = [CProcesses; CLog (LProcess 0 true); CLog (LProcess 1 false)] /\
  firstn 2 (skipn 8 (calls (ex_run "signals"))) = [CLog (LText (T " 9: SIGKILL")); CLog (LText (T "10: SIGUSR1"))] /\
  forallb (fun x => 0 <=? fst x) (getSignalNames linux_signals) = true.
Proof. vm_compute. auto. Qed.
(** set: the register is set and the user is told; a name without $ is refused. *)
Theorem c107_set : forall p ns dis eval env key value v st, ~ In "="%char key -> parse p eval env st value = Ok v -> forall name, lower (strip key) = T "$" ++ name ->
  answers env (CSetReg (g_process st) name v) AUnit ->
  does (run p ns dis eval env (dispatch (T "set " ++ key ++ T "=" ++ value))) st [(CSetReg (g_process st) name v, AUnit); says (T "Set $" ++ name ++ T " to " ++ str_int v)] (Ret None).
Proof. exact set_does. Qed.
Print Assumptions c107_set.
Theorem c107_set_sign : forall p ns dis eval env key value st, ~ In "="%char key -> starts_with (T "$") (lower (strip key)) = false ->
  does (run p ns dis eval env (dispatch (T "set " ++ key ++ T "=" ++ value))) st [] (Ret (Some (MText (T "Register name (" ++ lower (strip key) ++ T ") have to start with ""$""")))).
Proof. exact set_no_sign. Qed.
Print Assumptions c107_set_sign.
(** break: a breakpoint of the size of the instruction, if it is known; the error is reported. *)
Theorem c107_break : forall p ns dis eval env t a n st bp, parse p eval env st t = Ok a -> (dis = true -> answers env (CInstrSize (g_process st) a) (AInt n)) ->
  answers env (CCreateBreakpoint (g_process st) a (size_of dis n)) (AObj (Some bp)) ->
  does (run p ns dis eval env (dispatch (T "break " ++ t))) st (asks_size dis st a (Some n) ++ [(CCreateBreakpoint (g_process st) a (size_of dis n), AObj (Some bp)); line (LNewBreakpoint bp)]) (Ret None).
Proof. exact break_does. Qed.
Print Assumptions c107_break.
Theorem c107_break_error : forall p ns dis eval env t a n st e, parse p eval env st t = Ok a -> (dis = true -> answers env (CInstrSize (g_process st) a) (AInt n)) ->
  answers env (CCreateBreakpoint (g_process st) a (size_of dis n)) (ARaise (XErr e)) -> is_ptrace_error e = true ->
  does (run p ns dis eval env (dispatch (T "break " ++ t))) st (asks_size dis st a (Some n) ++ [(CCreateBreakpoint (g_process st) a (size_of dis n), ARaise (XErr e))]) (Ret (Some (MNoBreak a e))).
Proof. exact break_fails. Qed.
Print Assumptions c107_break_error.
(** delete: the breakpoint at the address is removed, without moving the process. *)
Theorem c107_delete : forall p ns dis eval env t a st bp, parse p eval env st t = Ok a -> answers env (CFindBreakpoint (g_process st) a) (AObj (Some bp)) -> answers env (CDesinstall bp false) AUnit ->
  does (run p ns dis eval env (dispatch (T "delete " ++ t))) st [(CFindBreakpoint (g_process st) a, AObj (Some bp)); (CDesinstall bp false, AUnit); line (LDeleted bp)] (Ret None).
Proof. exact delete_does. Qed.
Print Assumptions c107_delete.
Theorem c107_delete_none : forall p ns dis eval env t a st, parse p eval env st t = Ok a -> answers env (CFindBreakpoint (g_process st) a) (AObj None) ->
  does (run p ns dis eval env (dispatch (T "delete " ++ t))) st [(CFindBreakpoint (g_process st) a, AObj None)] (Ret (Some (MText (T "No breakpoint at " ++ formatAddress p a ++ T " ")))).
Proof. exact delete_none. Qed.
Print Assumptions c107_delete_none.
Example c107_set_ex : calls (ex_run "set $RAX =0x10+1") = [CSetReg 0 (T "rax") 17; CLog (LText (T "Set $rax to 17"))] /\
  snd (ex_run "set rax=1") = Ret (Some (MText (T "Register name (rax) have to start with ""$"""))) /\
  calls (ex_run "break 4096") = [CInstrSize 0 4096; CCreateBreakpoint 0 4096 (Some 3); CLog (LNewBreakpoint 7)] /\
  snd (ex_run "break 8192") = Ret (Some (MNoBreak 8192 (EPtraceError (Some 3)))) /\
  calls (ex_run "delete 4095") = [CFindBreakpoint 0 4095; CDesinstall 3 false; CLog (LDeleted 3)] /\
  snd (ex_run "delete 4") = Ret (Some (MText (T "No breakpoint at 0x0000000000000004 "))).
Proof. vm_compute. auto 10. Qed.
(** step: the process runs to the instruction behind the current one; without a disassembler nothing is done. *)
Theorem c107_step : forall p ns dis eval env st ip shown n m bp ev, dis = true -> answers env (CDisassemble (g_process st)) (AInt shown) -> answers env (CGetIP (g_process st)) (AInt ip) ->
  answers env (CInstrSize (g_process st) ip) (AInt n) -> n <> 0 ->
  answers env (CInstrSize (g_process st) (ip + n)) (AInt m) -> answers env (CCreateBreakpoint (g_process st) (ip + n) (Some m)) (AObj (Some bp)) ->
  answers env (CCont (g_process st) 0) AUnit -> answers env (CWait (g_process st) 5) (AEvent ev) -> answers env (CDesinstall bp true) AUnit ->
  does (run p ns dis eval env (dispatch (T "step"))) st
    (shows_code dis st "Execute" shown ++ [(CGetIP (g_process st), AInt ip)] ++ asks_size dis st ip (Some n) ++ runs_to dis st (ip + n) m bp ev) (Ret None).
Proof. exact step_does. Qed.
Print Assumptions c107_step.
Theorem c107_step_unknown : forall p ns dis eval env st ip, dis = false -> answers env (CDumpCode (g_process st) None None false) AUnit -> answers env (CGetIP (g_process st)) (AInt ip) ->
  does (run p ns dis eval env (dispatch (T "step"))) st [(CDumpCode (g_process st) None None false, AUnit); (CGetIP (g_process st), AInt ip)]
    (Ret (Some (MText (T "Unable to read instruction size at " ++ formatAddress p ip)))).
Proof. exact step_unknown. Qed.
Print Assumptions c107_step_unknown.
(** stepi: one instruction, by the kernel. *)
Theorem c107_stepi : forall p ns (dis : bool) eval env st shown ev, answers env (if dis then CDisassemble (g_process st) else CDumpCode (g_process st) None None false) (if dis then AInt shown else AUnit) ->
  answers env (CStep (g_process st)) AUnit -> answers env (CWait (g_process st) 5) (AEvent ev) ->
  does (run p ns dis eval env (dispatch (T "stepi"))) st (shows_code dis st "Execute" shown ++ [(CStep (g_process st), AUnit); (CWait (g_process st) 5, AEvent ev)]) (Ret None).
Proof. exact stepi_does. Qed.
Print Assumptions c107_stepi.
(** until: the process runs to the address, the instruction there is shown. *)
Theorem c107_until : forall p ns (dis : bool) eval env t a n st bp ev shown, parse p eval env st t = Ok a -> (dis = true -> answers env (CInstrSize (g_process st) a) (AInt n)) ->
  answers env (CCreateBreakpoint (g_process st) a (size_of dis n)) (AObj (Some bp)) ->
  answers env (CCont (g_process st) 0) AUnit -> answers env (CWait (g_process st) 5) (AEvent ev) -> answers env (CDesinstall bp true) AUnit ->
  answers env (if dis then CDisassemble (g_process st) else CDumpCode (g_process st) None None false) (if dis then AInt shown else AUnit) ->
  does (run p ns dis eval env (dispatch (T "until " ++ t))) st (runs_to dis st a n bp ev ++ shows_code dis st "Current" shown) (Ret None).
Proof. exact until_does. Qed.
Print Assumptions c107_until.
(** cont: a process that stops at a breakpoint is put before it, and the breakpoint is removed. *)
Theorem c107_cont : forall p ns dis eval env st st1 l q ip bp, answers env CProcesses (AProcs l) -> cont_loop env 0 l (push CProcesses (AProcs l) st) = (st1, Ret tt) ->
  answers env CWaitSignals (AEvent (ProcessSignal 5 q)) -> answers env (CGetIP (g_process st1)) (AInt ip) ->
  answers env (CFindBreakpoint (g_process st1) (stopped_at p ip)) (AObj bp) -> (forall b, bp = Some b -> answers env (CDesinstall b true) AUnit) ->
  exists st2, run p ns dis eval env (dispatch (T "cont")) st = (st2, Ret (@None emsg)) /\ same st1 st2 /\
    g_hist st2 = rev ([(CWaitSignals, AEvent (ProcessSignal 5 q)); (CGetIP (g_process st1), AInt ip); (CFindBreakpoint (g_process st1) (stopped_at p ip), AObj bp)] ++
      match bp with Some b => [line (LStopped b); (CDesinstall b true, AUnit)] | None => [] end) ++ g_hist st1.
Proof. exact cont_stopped. Qed.
Print Assumptions c107_cont.
(** sys: up to the next system call, which is shown. *)
Theorem c107_sys : forall p ns dis eval env st ev t, answers env (CSyscall (g_process st)) AUnit -> answers env (CWaitSyscall (g_process st)) (AEvent ev) -> answers env (CSyscallEvent (g_process st)) (AText t) ->
  does (run p ns dis eval env (dispatch (T "sys"))) st [(CSyscall (g_process st), AUnit); (CWaitSyscall (g_process st), AEvent ev); (CSyscallEvent (g_process st), AText t); says t] (Ret None).
Proof. exact sys_does. Qed.
Print Assumptions c107_sys.
(** attach: the new process becomes the current one. *)
Theorem c107_attach : forall p ns dis eval env t pid st q, parse p eval env st t = Ok pid -> answers env (CAddProcess pid) (AObj (Some q)) -> q <> g_process st ->
  does_and_switches (run p ns dis eval env (dispatch (T "attach " ++ t))) st [(CAddProcess pid, AObj (Some q)); line (LSwitch q)] q (Ret None).
Proof. exact attach_does. Qed.
Print Assumptions c107_attach.
Example c107_step_ex : calls (ex_run "step") = [CDisassemble 0; CLog (LInstr (T "Execute") 4096); CGetIP 0; CInstrSize 0 4096; CInstrSize 0 4099; CCreateBreakpoint 0 4099 (Some 2); CCont 0 0; CWait 0 5; CDesinstall 7 true] /\
  calls (ex_run "stepi") = [CDisassemble 0; CLog (LInstr (T "Execute") 4096); CStep 0; CWait 0 5] /\
  skipn 5 (calls (ex_run "until 16")) = [CDisassemble 0; CLog (LInstr (T "Current") 4096)] /\
  skipn 5 (calls (ex_run "cont")) = [CWaitSignals; CGetIP 0; CFindBreakpoint 0 4095; CLog (LStopped 3); CDesinstall 3 true] /\
  calls (ex_run "sys") = [CSyscall 0; CWaitSyscall 0; CSyscallEvent 0; CLog (LText (T "getpid()"))] /\ g_process (fst (ex_run "attach 77")) = 9%nat.
Proof. vm_compute. auto 10. Qed.
(** The end of the input ends the session; Ctrl-C at the prompt interrupts the processes; the program may be impossible to start. *)
Theorem c107_eof : forall p ns dis eval env st, answers env CEcho (ABool false) -> answers env CInput AEof ->
  does (mainLoop p ns dis eval env) st [(CEcho, ABool false); (CInput, AEof)] (Ret true).
Proof. exact eof_does. Qed.
Print Assumptions c107_eof.
Theorem c107_interrupt : forall p ns dis eval env st, answers env CEcho (ABool false) -> answers env CInput (ARaise (XErr EKeyboardInterrupt)) ->
  mainLoop p ns dis eval env st =
  (_ <-- interrupt env; gret false) (push (CLog (LText (T "User interrupt!"))) AUnit (push CInput (ARaise (XErr EKeyboardInterrupt)) (push CEcho (ABool false) st))).
Proof. exact user_interrupt. Qed.
Print Assumptions c107_interrupt.
Theorem c107_start : forall p ns dis eval env fuel st, answers env CStart (ARaise (XErr EChildError)) ->
  does (runDebugger p ns dis eval env fuel) st [(CStart, ARaise (XErr EChildError)); says (T "Unable to create child process")] (Ret tt).
Proof. exact start_fails. Qed.
Print Assumptions c107_start.
Example c107_end_ex : mainLoop linux_x86_64 linux_signals true py_eval ex_env ex_state = (push CInput AEof (push CEcho (ABool false) ex_state), Ret true) /\
  calls (fst (runDebugger linux_x86_64 linux_signals true py_eval ex_env 5 ex_state), Ret None) = [CStart; CLog (LText (T "Unable to create child process"))].
Proof. vm_compute. auto. Qed.
