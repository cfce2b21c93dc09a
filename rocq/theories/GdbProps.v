(** * GdbProps: theorems about the commands of gdb.py (C45-C48, C76-C78). *)
From Coq Require Import ZArith List Ascii String Bool Lia Arith.
From Verif Require Import PyBase PyFacts Platform IntModel IntProofs SigModel DbgModel MapModel TraceModel PyEval ExprModel GdbModel GdbSpec GdbProofs GdbProofs2 GdbProofs3 GdbProofs4 GdbProofs5.
Import ListNotations.
Open Scope Z_scope.

(** The environment of the examples: two processes, the second of which receives SIGSEGV; the bytes of memory are the
    low bytes of their addresses, but the addresses 32 to 47 cannot be read. *)
Definition ex_env (h : list (gcall * ans)) (c : gcall) : ans :=
  match c with
  | CProcesses => AProcs [0; 1]%nat
  | CLookup pid => AObj (if pid =? 100 then Some 0%nat else if pid =? 101 then Some 1%nat else None)
  | CWaitSignals => AEvent (ProcessSignal 11 1)
  | CTermWidth => AInt 85
  | CEcho => ABool false
  | CInput => AText (T " print 1+2 ; switch ")
  | CReadBytes _ a n => if (32 <=? a) && (a <? 48) then ARaise (XErr (EPtraceError (Some 5))) else ABytes (map (fun k => z2b (a + k)) (zrange (Z.to_nat n)))
  | CMappings _ => AMaps []
  | CCreateBreakpoint _ _ _ => AObj (Some 7%nat)
  | CWait _ s => AEvent (ProcessSignal s 0)
  | CIsStopped q => ABool (Nat.eqb q 0)
  | CIsTraced q => ABool false
  | CGetIP _ => AInt 4096
  | CFindBreakpoint _ _ => AObj None
  | _ => AUnit
  end.
Definition ex_state : gstate := GState 0 [] [] None [].

(** ** C45 *)
(** hexdump with a start: five rows. *)
Theorem c45_start : forall p eval env read cols st,
  (forall h a n, env h (CReadBytes (g_process st) a n) = match read a n with Ok s => ABytes s | Err e => ARaise (XErr e) end) ->
  env (g_hist st) CTermWidth = AInt cols ->
  (forall a n s, read a n = Ok s -> zlen s = n) -> (forall a n e, read a n = Err e -> is_ptrace_error e = true) ->
  let width := row_bytes p cols in let st1 := push CTermWidth (AInt cols) st in
  forall t start, split1 " "%char t = None -> parse p eval env st1 t = Ok start ->
  exists st' items, hexdump p eval env t st = (st', Ret None) /\ same st st' /\ covers items start (start + 5 * width) /\
    Forall (in_memory read width (start + 5 * width)) items /\ no_gaps_touch items /\
    lines_of (g_hist st') = lines_of (g_hist st) ++ map (item_line p width) items.
Proof. exact hexdump_one. Qed.
Print Assumptions c45_start.
(** hexdump with a range: at most twenty rows. *)
Theorem c45_range : forall p eval env read cols st,
  (forall h a n, env h (CReadBytes (g_process st) a n) = match read a n with Ok s => ABytes s | Err e => ARaise (XErr e) end) ->
  env (g_hist st) CTermWidth = AInt cols ->
  (forall a n s, read a n = Ok s -> zlen s = n) -> (forall a n e, read a n = Err e -> is_ptrace_error e = true) ->
  let width := row_bytes p cols in let st1 := push CTermWidth (AInt cols) st in
  forall t t1 t2 start stop, split1 " "%char t = Some (t1, t2) -> parse p eval env st1 t1 = Ok start -> parse p eval env st1 t2 = Ok stop -> start < stop ->
  let stop' := Z.min stop (start + 20 * width) in
  exists st' items, hexdump p eval env t st = (st', Ret None) /\ same st st' /\ covers items start stop' /\
    Forall (in_memory read width stop') items /\ no_gaps_touch items /\
    lines_of (g_hist st') = lines_of (g_hist st) ++ map (item_line p width) items ++
      (if stop' <? stop then [LText (T "(limit to " ++ str_int (20 * width) ++ T " bytes)")] else []).
Proof. exact hexdump_two. Qed.
Print Assumptions c45_range.
Theorem c45_empty : forall p eval env cols st,
  env (g_hist st) CTermWidth = AInt cols -> let st1 := push CTermWidth (AInt cols) st in
  forall t t1 t2 start stop, split1 " "%char t = Some (t1, t2) -> parse p eval env st1 t1 = Ok start -> parse p eval env st1 t2 = Ok stop -> stop <= start ->
  hexdump p eval env t st = (st1, Ret (Some (MError EValueError))).
Proof. exact hexdump_empty. Qed.
Print Assumptions c45_empty.
(** A row is not wider than the terminal, unless the terminal has not the room for one byte. *)
Theorem c45_fits : forall p cols a s t, 0 <= a < 2 ^ wbits p -> zlen s <= row_bytes p cols ->
  item_line p (row_bytes p cols) (Row a s) = LText t -> zlen t <= Z.max cols ((if p_64bits p then 18 else 10) + 7).
Proof. exact row_fits. Qed.
Print Assumptions c45_fits.
(** The bytes can be read back from a row. *)
Theorem c45_bytes : forall n s s', split_ws (pad_to n (join (T " ") (map hex_byte s))) = split_ws (pad_to n (join (T " ") (map hex_byte s'))) -> s = s'.
Proof. intros n s s' H. rewrite !hex_column in H. exact (hex_column_inj s s' H). Qed.
Print Assumptions c45_bytes.
Example c45_ex : lines_of (g_hist (fst (hexdump linux_x86_64 py_eval ex_env (T "0x18 0x38") ex_state))) =
  [LText (T "0x0000000000000018| 18 19 1a 1b 1c 1d 1e 1f 20 21 22 23 24 25 26 27| ........ !""#$%&'");
   LText (T "Warning: Unable to read memory 0x0000000000000028-0x0000000000000038")] /\
  split1 " "%char (T "0x18 0x38") = Some (T "0x18", T "0x38") /\ parse linux_x86_64 py_eval ex_env (push CTermWidth (AInt 85) ex_state) (T "0x18") = Ok 24.
Proof. vm_compute. auto. Qed.

(** ** C46 *)
Theorem c46_next : forall p eval env l n, NoDup l -> (2 <= List.length l)%nat -> (forall h, env h CProcesses = AProcs l) ->
  forall st i, nth_error l i = Some (g_process st) ->
  exists st', switches p eval env n st = (st', Ret None) /\ nth_error l ((i + n) mod List.length l) = Some (g_process st') /\ rest_same st st'.
Proof. exact switch_cycle. Qed.
Print Assumptions c46_next.
Theorem c46_all : forall p eval env l, NoDup l -> (2 <= List.length l)%nat -> (forall h, env h CProcesses = AProcs l) ->
  forall st q, In (g_process st) l -> In q l -> exists n st', (n < List.length l)%nat /\ switches p eval env n st = (st', Ret None) /\ g_process st' = q.
Proof. exact switch_all. Qed.
Print Assumptions c46_all.
Theorem c46_single : forall p eval env st q, env (g_hist st) CProcesses = AProcs [q] ->
  exists m, switch p eval env [] st = (push CProcesses (AProcs [q]) st, Ret (Some m)).
Proof. exact switch_single. Qed.
Print Assumptions c46_single.
Theorem c46_pid : forall p eval env st c t pid o, parse p eval env st (c :: t) = Ok pid -> env (g_hist st) (CLookup pid) = AObj o ->
  exists st' m, switch p eval env (c :: t) st = (st', Ret m) /\ rest_same st st' /\
    match o with Some id => g_process st' = id /\ m = None | None => g_process st' = g_process st /\ m <> None end.
Proof. exact switch_pid. Qed.
Print Assumptions c46_pid.
(** If the current process is not traced any more, switch ends the debugger instead of selecting another process. *)
Theorem c46_lost_refuted : exists p eval env st l, (forall h, env h CProcesses = AProcs l) /\ l <> [] /\
  snd (switch p eval env [] st) = Raise (XErr EValueError).
Proof. exists linux_x86_64, py_eval, ex_env, (GState 5 [] [] None []), [0; 1]%nat. split; [reflexivity|]. split; [discriminate|]. vm_compute. reflexivity. Qed.
Print Assumptions c46_lost_refuted.
Example c46_ex : g_process (fst (switches linux_x86_64 py_eval ex_env 3 ex_state)) = 1%nat /\
  g_process (fst (switch linux_x86_64 py_eval ex_env (T " 0x65") ex_state)) = 1%nat.
Proof. vm_compute. auto. Qed.

(** ** C47 *)
(** The debugger remembers exactly the signals which have been announced and not passed on yet, whatever is typed except
    the command "signal"... *)
Theorem c47_remembered : forall p ns dis eval env line,
  Forall (fun c => forall t, dispatch (strip c) <> KSignal t) (split_char ";"%char line) ->
  forall st, sinv false st -> sinv false (fst (run_line p ns dis eval env line st)).
Proof. intros p ns dis eval env line H. exact (sinv_line false p ns dis eval env line (or_intror H)). Qed.
Print Assumptions c47_remembered.
(** ... and with it, never another signal. *)
Theorem c47_session_partial : forall p ns dis eval env fuel st, sinv true st -> sinv true (fst (session p ns dis eval env fuel st)).
Proof. exact sinv_session. Qed.
Print Assumptions c47_session_partial.
(** cont continues every process once, with its signal; the current one with the signal of "signal", if any. *)
Theorem c47_delivered : forall p env s st st' l m, env (g_hist st) CProcesses = AProcs l -> NoDup l -> sinv false st ->
  gdb_cont p env s st = (st', Ret m) -> continued (g_hist st') = continued (g_hist st) ++ map (fun q => (q, chosen st s q)) l.
Proof. exact gdb_cont_ok. Qed.
Print Assumptions c47_delivered.
(** And after that none of these signals is left. *)
Theorem c47_once : forall env s l, NoDup l -> forall st st', sinv false st -> cont_loop env s l st = (st', Ret tt) ->
  forall q, In q l -> last_of st' q = 0.
Proof. exact cont_loop_once. Qed.
Print Assumptions c47_once.
(** "signal" forgets the signal that arrives while it waits. *)
Theorem c47_signal_refuted : exists p ns eval env st t, sinv false st /\
  let st' := fst (gdb_signal p ns eval env t st) in
  pending (g_process st) (g_hist st') = 11 /\ last_of st' (g_process st) = 0.
Proof.
  exists linux_x86_64, linux_signals, py_eval, ex_env, (GState 1 [] [] None []), (T "USR1"). split; [split; [constructor|intros q; now left]|]. vm_compute. auto.
Qed.
Print Assumptions c47_signal_refuted.
(** "signal 0" does not suppress the signal. *)
Theorem c47_zero_refuted : exists p ns eval env st, sinv false st /\ pending (g_process st) (g_hist st) = 11 /\
  continued (g_hist (fst (gdb_signal p ns eval env (T "0") st))) = [(0%nat, 0); (g_process st, 11)].
Proof.
  exists linux_x86_64, linux_signals, py_eval, ex_env, (GState 1 [(1%nat, 11)] [] None [(CLog (LInterrupted 1 11), AUnit)]). split; [|vm_compute; auto].
  split; [constructor; [intros []|constructor]|]. intros q. left. unfold last_of. cbn [g_last g_hist dget pending]. destruct (Nat.eqb_spec 1 q) as [<-|Hq]; [reflexivity|]. destruct (Nat.eqb_spec q 1); [congruence|reflexivity].
Qed.
Print Assumptions c47_zero_refuted.
(** interrupt() only shows the signals which it receives while it waits for SIGINT: they are lost. *)
Theorem c47_interrupt_refuted : exists env st s q, In (CDisplay (ProcessSignal s q), AUnit) (g_hist (fst (interrupt env st))) /\
  last_of (fst (interrupt env st)) q = 0.
Proof.
  exists (fun h c => match c with CWait _ _ => ARaise (XEvent (ProcessSignal 15 1)) | c => ex_env h c end), ex_state, 15, 1%nat. vm_compute. auto.
Qed.
Print Assumptions c47_interrupt_refuted.
(** A SIGTRAP is looked up in the current process, even if another process has received it; it is not announced, either. *)
Theorem c47_trap_refuted : exists p env st q, env [] CWaitSignals = AEvent (ProcessSignal 5 q) /\ q <> g_process st /\
  let h := g_hist (fst (gdb_cont p env 0 st)) in
  In (CGetIP (g_process st), AInt 4096) h /\ lines_of h = [] /\ ~ In (CGetIP q) (map fst h).
Proof.
  exists linux_x86_64, (fun h c => match c with CWaitSignals => AEvent (ProcessSignal 5 1) | c => ex_env h c end), ex_state, 1%nat. split; [reflexivity|]. split; [discriminate|]. vm_compute. split; [auto|]. split; [reflexivity|].
  intros H. repeat destruct H as [H|H]; try discriminate H. exact H.
Qed.
Print Assumptions c47_trap_refuted.
Example c47_ex : let h := g_hist (fst (run_line linux_x86_64 linux_signals false py_eval ex_env (T "cont; cont") ex_state)) in
  continued h = [(0%nat, 0); (1%nat, 0); (0%nat, 0); (1%nat, 11)] /\ pending 1 h = 11 /\ sinv false ex_state.
Proof. vm_compute. split; [auto|]. split; [auto|]. split; [constructor|]. intros q. left. reflexivity. Qed.

(** ** C48 *)
(** All the commands of a line succeed: they are executed in turn, and the line is remembered. *)
Theorem c48_success : forall p ns dis eval env t st st', t <> T "quit" ->
  succeed (execute p ns dis eval env) (split_char ";"%char t) (set_previous None st) st' ->
  run_line p ns dis eval env t st = (set_previous (Some t) st', Ret false).
Proof. exact line_ok. Qed.
Print Assumptions c48_success.
(** A command fails: the following ones are not executed, and no line is remembered. *)
Theorem c48_failure : forall p ns dis eval env t st before c after st1 st2, t <> T "quit" -> split_char ";"%char t = before ++ c :: after ->
  succeed (execute p ns dis eval env) before (set_previous None st) st1 -> execute p ns dis eval env (strip c) st1 = (st2, Ret false) ->
  run_line p ns dis eval env t st = (st2, Ret false) /\ g_previous st2 = None.
Proof. exact line_fail. Qed.
Print Assumptions c48_failure.
(** A command raises an exception: only the handler of the exception is executed after it. *)
Theorem c48_exception : forall p ns dis eval env t st before c after st1 st2 x, t <> T "quit" -> split_char ";"%char t = before ++ c :: after ->
  succeed (execute p ns dis eval env) before (set_previous None st) st1 -> execute p ns dis eval env (strip c) st1 = (st2, Raise x) ->
  run_line p ns dis eval env t st = (_ <-- handle env x; gret false) (if is_exception x then push (CLog (LCommandError x)) AUnit st2 else st2).
Proof. exact line_raise. Qed.
Print Assumptions c48_exception.
Theorem c48_line : forall p ns dis eval env st t c l, reads env st t -> strip t = c :: l ->
  mainLoop p ns dis eval env st = run_line p ns dis eval env (c :: l) (after_input st t).
Proof. exact loop_line. Qed.
Print Assumptions c48_line.
(** An empty line *)
Theorem c48_empty : forall p ns dis eval env st t, reads env st t -> strip t = [] ->
  mainLoop p ns dis eval env st = match g_previous st with
                                  | Some (c :: l) => run_line p ns dis eval env (c :: l) (after_input st t)
                                  | _ => (after_input st t, Ret false)
                                  end.
Proof. exact loop_empty. Qed.
Print Assumptions c48_empty.
Theorem c48_quit : forall p ns dis eval env st, run_line p ns dis eval env (T "quit") st = (set_previous None st, Ret true).
Proof. exact line_quit. Qed.
Print Assumptions c48_quit.
(** What the commands are *)
Theorem c48_words : map dispatch words = [KCont; KProc; KProclist; KRegs; KStack; KGcore; KBacktrace; KWhere []; KWhere2 []; KMaps; KDbginfo; KStep; KStepi; KSys; KHelp; KShowfollow; KResetfollow; KXray].
Proof. vm_compute. reflexivity. Qed.
Print Assumptions c48_words.
Theorem c48_arguments : forall t, map (fun w => dispatch (w ++ t)) prefixes =
  [KAttach t; KWhere t; KWhere2 t; KSet t; KUntil t; KSwitch t; KBreak t; KBreakpoints; KSignals; KDelete t; KHexdump t; KSignal t; KPrint t; KFollow t].
Proof. intros t. reflexivity. Qed.
Print Assumptions c48_arguments.
Theorem c48_unknown : forall c, ~ In c words -> (forall w, In w prefixes -> starts_with w c = false) -> dispatch c = KUnknown c.
Proof. exact dispatch_unknown. Qed.
Print Assumptions c48_unknown.
(** The last line that succeeded is not replayed if another line has failed since. *)
Theorem c48_replay_refuted : exists p ns dis eval env st good bad, let line t st := run_line p ns dis eval env t st in
  g_previous (fst (line good st)) = Some good /\ g_previous (fst (line bad (fst (line good st)))) = None.
Proof. exists linux_x86_64, linux_signals, false, py_eval, ex_env, ex_state, (T "switch"), (T "foo"). vm_compute. auto. Qed.
Print Assumptions c48_replay_refuted.
(** An error of the arithmetic ends the debugger instead of the line. *)
Theorem c48_error_refuted : exists p ns dis eval env st t, snd (run_line p ns dis eval env t st) = Raise (XErr EZeroDivisionError).
Proof. exists linux_x86_64, linux_signals, false, py_eval, ex_env, ex_state, (T "print 1/0"). vm_compute. reflexivity. Qed.
Print Assumptions c48_error_refuted.
(** quit is a line, not a command. *)
Theorem c48_quit_refuted : exists p ns dis eval env st, let r := run_line p ns dis eval env (T "switch; quit") st in
  snd r = Ret false /\ exists l, lines_of (g_hist (fst r)) = l ++ [LErrmsg (MText (T "Unknown command: 'quit'"))].
Proof. exists linux_x86_64, linux_signals, false, py_eval, ex_env, ex_state. vm_compute. split; [reflexivity|]. eexists [_]. reflexivity. Qed.
Print Assumptions c48_quit_refuted.
Example c48_ex : reads ex_env ex_state (T " print 1+2 ; switch ") /\
  let st := fst (mainLoop linux_x86_64 linux_signals false py_eval ex_env ex_state) in
  lines_of (g_hist st) = [LText (T "Decimal: 3"); LText (T "Hexadecimal: 0x0000000000000003"); LSwitch 1] /\ g_previous st = Some (T "print 1+2 ; switch").
Proof. vm_compute. auto. Qed.

(** ** C76 *)
(** A step removes the breakpoint it creates, whatever happens while it waits, if the process could be continued. *)
Theorem c76_removed_partial : forall p dis env enter address st, let h := g_hist (fst (step p dis env enter address st)) in
  exists new, h = new ++ g_hist st /\
  forall id a size bp, In (CCreateBreakpoint id a size, AObj (Some bp)) new -> removed h id bp.
Proof. exact step_cleans. Qed.
Print Assumptions c76_removed_partial.
(** Without an error, it has been set at the address and removed with the instruction pointer restored. *)
Theorem c76_until : forall p dis env a st st', step p dis env false (Some a) st = (st', Ret None) ->
  exists bp r, g_hist st' = (CDesinstall bp true, AUnit) :: r /\ exists id size, In (CCreateBreakpoint id a size, AObj (Some bp)) r.
Proof. exact until_address. Qed.
Print Assumptions c76_until.
(** If the process could not be continued, the breakpoint stays. *)
Theorem c76_left_refuted : exists p dis env a st, let h := g_hist (fst (step p dis env false (Some a) st)) in
  In (CCreateBreakpoint 0 a None, AObj (Some 7%nat)) h /\ forall set_ip, ~ In (CDesinstall 7 set_ip) (map fst h).
Proof.
  exists linux_x86_64, false, (fun h c => match c with CCont _ _ => ARaise (XErr (EPtraceError (Some 3))) | c => ex_env h c end), 4096, ex_state. vm_compute. split; [auto|].
  intros s H. repeat destruct H as [H|H]; try discriminate H. exact H.
Qed.
Print Assumptions c76_left_refuted.
Example c76_ex : snd (step linux_x86_64 false ex_env false (Some 4096) ex_state) = Ret None.
Proof. vm_compute. reflexivity. Qed.

(** ** C77 *)
(** The debugger is asked to quit whatever has happened, unless the program has been ended by exit(). *)
Theorem c77_quit : forall p ns dis eval env fuel st, gone (snd (gdb_main p ns dis eval env fuel st)) \/ exists a, In (CQuit, a) (g_hist (fst (gdb_main p ns dis eval env fuel st))).
Proof. exact main_quits. Qed.
Print Assumptions c77_quit.
Theorem c77_no_exception : forall p ns dis eval env fuel st, (forall h, env h CQuit = AUnit) -> (forall h, exists b, env h CEcho = ABool b) ->
  gone (snd (gdb_main p ns dis eval env fuel st)) \/ exists st', gdb_main p ns dis eval env fuel st = (st', Ret tt).
Proof. exact main_no_raise. Qed.
Print Assumptions c77_no_exception.
(** An exit() comes from the session. *)
Theorem c77_exit : forall p ns dis eval env fuel st x, snd (gdb_main p ns dis eval env fuel st) = Raise x ->
  (forall h, env h CQuit = AUnit) -> (forall h, exists b, env h CEcho = ABool b) -> snd (runDebugger p ns dis eval env fuel st) = Raise x.
Proof. exact main_session. Qed.
Print Assumptions c77_exit.
Example c77_ex : let env := fun h c => match c with CInput => AText (T "print 1/0") | CStart => AObj (Some 0%nat) | c => ex_env h c end in
  let h := g_hist (fst (gdb_main linux_x86_64 linux_signals false py_eval env 3 ex_state)) in
  snd (gdb_main linux_x86_64 linux_signals false py_eval env 3 ex_state) = Ret tt /\ In (CLog (LCommandError (XErr EZeroDivisionError)), AUnit) h /\ In (CLog (LDebuggerError (XErr EZeroDivisionError)), AUnit) h.
Proof. vm_compute. auto 20. Qed.

(** ** C78 *)
(** An interruption sends one SIGINT to each running process, and then waits once for each of them. *)
Theorem c78_interrupt : forall env running,
  (forall h q, exists s, env h (CIsStopped q) = ABool s /\
    (if s then running q = false
     else env h (CIsTraced q) = ABool (negb (running q)) \/ (env h (CIsTraced q) = ARaise (XErr ENotImplementedError) /\ running q = true))) ->
  (forall h h' q s, env h (CIsStopped q) = ABool s -> env h' (CIsStopped q) = ABool s) ->
  forall st st' l, env (g_hist st) CProcesses = AProcs l -> interrupt env st = (st', Ret tt) ->
  killed (g_hist st') = killed (g_hist st) ++ map (fun q => (q, 2)) (filter running l) /\
  waited (g_hist st') = waited (g_hist st) ++ map (fun q => (q, 2)) (filter running l).
Proof. exact interrupt_ok. Qed.
Print Assumptions c78_interrupt.
Example c78_ex : let st' := fst (interrupt ex_env ex_state) in
  snd (interrupt ex_env ex_state) = Ret tt /\ killed (g_hist st') = [(1%nat, 2)] /\ waited (g_hist st') = [(1%nat, 2)] /\
  (forall h q, exists s, ex_env h (CIsStopped q) = ABool s /\
    (if s then negb (Nat.eqb q 0) = false
     else ex_env h (CIsTraced q) = ABool (negb (negb (Nat.eqb q 0))) \/ (ex_env h (CIsTraced q) = ARaise (XErr ENotImplementedError) /\ negb (Nat.eqb q 0) = true))).
Proof. cbn. split; [reflexivity|]. split; [reflexivity|]. split; [reflexivity|]. intros h q. exists (Nat.eqb q 0). split; [reflexivity|]. destruct (Nat.eqb q 0); cbn; auto. Qed.
