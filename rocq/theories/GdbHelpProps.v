(** * GdbHelpProps: theorems about the errors of commands (C119) and the help (C120) of gdb.py. *)
From Coq Require Import ZArith List Ascii String Bool.
From Verif Require ArgModel.
From Verif Require Import PyBase Platform IntModel SigModel DbgModel MapModel TraceModel PyEval ExprModel GdbModel GdbSpec GdbCmdSpec GdbCmdProps GdbHelpProofs.
Import ListNotations.
Open Scope Z_scope.

(** ** C119 *)
(** A ptrace error of a command: the commands behind it are not executed, the error is shown, and the session goes on. *)
Theorem c119_goes_on : forall p ns dis eval env t st before c after st1 st2 e, t <> T "quit" -> split_char ";"%char t = before ++ c :: after ->
  succeed (execute p ns dis eval env) before (set_previous None st) st1 -> execute p ns dis eval env (strip c) st1 = (st2, Raise (XErr e)) ->
  is_ptrace_error e = true -> e <> EPtraceError (Some 3) ->
  run_line p ns dis eval env t st = (push (CLog (LPtraceError e)) AUnit (push (CLog (LCommandError (XErr e))) AUnit st2), Ret false).
Proof. exact line_goes_on. Qed.
Print Assumptions c119_goes_on.
(** Any other error of a command (but an interruption by the user) ends the session. *)
Theorem c119_ends : forall p ns dis eval env t st before c after st1 st2 e, t <> T "quit" -> split_char ";"%char t = before ++ c :: after ->
  succeed (execute p ns dis eval env) before (set_previous None st) st1 -> execute p ns dis eval env (strip c) st1 = (st2, Raise (XErr e)) ->
  is_ptrace_error e = false -> e <> EKeyboardInterrupt ->
  exists st3, run_line p ns dis eval env t st = (st3, Raise (XErr e)) /\ same st2 st3.
Proof. exact line_ends. Qed.
Print Assumptions c119_ends.
(** A wrong expression is enough. *)
Theorem c119_error_refuted : exists p ns dis env st t, reads env st t /\ snd (mainLoop p ns dis py_eval env st) = Raise (XErr EZeroDivisionError).
Proof. exists linux_x86_64, linux_signals, true, (fun h c => match c with CInput => AText (T "print 1/0") | c => ex_env h c end), ex_state, (T "print 1/0"). split; [split; reflexivity|]. vm_compute. reflexivity. Qed.
Print Assumptions c119_error_refuted.
(** gcore: both files are opened, and then the second one is refused: a text file must have a buffer. *)
Theorem c119_gcore : forall p ns dis eval env st pid, answers env (CPid (g_process st)) (AInt pid) ->
  answers env (COpen (T "/proc/" ++ str_int pid ++ T "/maps") (T "r")) AUnit -> answers env (COpen (T "/proc/" ++ str_int pid ++ T "/mem") (T "r")) AUnit ->
  does (run p ns dis eval env (dispatch (T "gcore"))) st
    [(CPid (g_process st), AInt pid); (COpen (T "/proc/" ++ str_int pid ++ T "/maps") (T "r"), AUnit); (COpen (T "/proc/" ++ str_int pid ++ T "/mem") (T "r"), AUnit)]
    (Raise (XErr EValueError)).
Proof. exact gcore_does. Qed.
Print Assumptions c119_gcore.
(** Whatever happens, gcore raises an exception and writes nothing. *)
Theorem c119_gcore_never : forall env st, (exists x, snd (gcore env st) = Raise x) /\
  exists new, g_hist (fst (gcore env st)) = new ++ g_hist st /\ forall path mode a, In (COpen path mode, a) new -> mode = T "r".
Proof. exact gcore_never. Qed.
Print Assumptions c119_gcore_never.
(** The messages for commands that cannot be understood *)
Theorem c119_unknown : forall p ns dis eval env c st, ~ In c words -> (forall w, In w prefixes -> starts_with w c = false) ->
  execute p ns dis eval env c st = (push (CLog (LErrmsg (MText (T "Unknown command: " ++ ArgModel.repr_ascii c)))) AUnit st, Ret false).
Proof. exact unknown_message. Qed.
Print Assumptions c119_unknown.
Theorem c119_set : forall p ns dis eval env t st, ~ In "="%char t ->
  does (run p ns dis eval env (dispatch (T "set " ++ t))) st [] (Ret (Some (MText (T "Invalid command: " ++ ArgModel.repr_ascii (T "set " ++ t))))).
Proof. exact set_invalid. Qed.
Print Assumptions c119_set.
Theorem c119_set_unable : forall p ns dis eval env key value v st, ~ In "="%char key -> parse p eval env st value = Ok v -> forall name, lower (strip key) = T "$" ++ name ->
  answers env (CSetReg (g_process st) name v) (ARaise (XErr EProcessError)) ->
  does (run p ns dis eval env (dispatch (T "set " ++ key ++ T "=" ++ value))) st [(CSetReg (g_process st) name v, ARaise (XErr EProcessError))] (Ret (Some (MUnset name v EProcessError))).
Proof. exact set_unable. Qed.
Print Assumptions c119_set_unable.
Example c119_ex : let env := fun h c => match c with CPid _ => AInt 77 | CSetReg _ _ _ => ARaise (XErr EProcessError) | c => ex_env h c end in
  let go := fun t => run_line linux_x86_64 linux_signals true py_eval env (T t) ex_state in
  snd (go "gcore; regs"%string) = Raise (XErr EValueError) /\ snd (go "cont; foo; regs"%string) = Ret false /\
  lines_of (g_hist (fst (go "foo 'x'; regs"%string))) = [LErrmsg (MText (T "Unknown command: ""foo 'x'"""))] /\
  lines_of (g_hist (fst (go "set $rax"%string))) = [LErrmsg (MText (T "Invalid command: 'set $rax'"))] /\
  lines_of (g_hist (fst (go "set $rax=1"%string))) = [LErrmsg (MUnset (T "rax") 1 EProcessError)] /\
  snd (run_line linux_x86_64 linux_signals true py_eval (fun h c => match c with CDump _ _ => ARaise (XErr (EPtraceError (Some 5))) | c => ex_env h c end) (T "regs") ex_state) = Ret false.
Proof. vm_compute. auto 10. Qed.

(** ** C120 *)
(** The help is the list of the commands, one on a line, and four lines of explanations. *)
Theorem c120_help : forall p ns dis eval env st,
  does (run p ns dis eval env (dispatch (T "help"))) st
    (map (fun c => says (fst c ++ T ": " ++ snd c)) COMMANDS ++
     [says []; says (T "Value can be an hexadecimal/decimal number or a register name ($reg)");
      says (T "You can use operators a+b, a-b, a*b, a/b, a<<b, a>>b, a**b, and parenthesis in expressions");
      says (T "Use "";"" to write multiple commands on the same line (e.g. ""step; print $eax"")")]) (Ret None).
Proof. exact help_does. Qed.
Print Assumptions c120_help.
Theorem c120_texts : COMMANDS = map (fun c => (T (fst c), T (snd c))) help_texts.
Proof. exact help_table. Qed.
Print Assumptions c120_texts.
(** Every command of the list is understood, alone or with an argument. *)
Theorem c120_understood : forall c, In c COMMANDS -> fst c = T "quit" \/ (forall t, dispatch (fst c) <> KUnknown t) \/ (forall t, dispatch (fst c ++ T " 1") <> KUnknown t).
Proof. exact help_understood. Qed.
Print Assumptions c120_understood.
(** Every text that is understood begins with a command of the list. *)
Theorem c120_listed : forall c, (forall t, dispatch c <> KUnknown t) -> exists x, In x COMMANDS /\ starts_with (fst x) c = true.
Proof. exact understood_listed. Qed.
Print Assumptions c120_listed.
Theorem c120_once : NoDup (map fst COMMANDS).
Proof. exact help_once. Qed.
Print Assumptions c120_once.
Example c120_ex : List.length COMMANDS = 31%nat /\ nth_error (lines_of (g_hist (fst (ex_run "help")))) 2 = Some (LText (T "stepi: execute one instruction (enter the call)")) /\
  dispatch (T "break 1") = KBreak (T "1") /\ dispatch (T "break") = KUnknown (T "break") /\ (forall t, dispatch (T "switchboard") <> KUnknown t).
Proof. vm_compute. repeat split. discriminate. Qed.
