(** * GdbSwitchProps: C107, the command switch of gdb.py. *)
From Coq Require Import ZArith List Ascii String Bool.
From Verif Require Import PyBase Platform IntModel SigModel DbgModel PyEval ExprModel GdbModel GdbSpec GdbCmdSpec GdbCmdProps GdbSwitchProofs.
Import ListNotations.
Open Scope Z_scope.

(** switch: the process behind the current one, the first one behind the last one. *)
Theorem c107_switch_next : forall p ns dis eval env st before after q, answers env CProcesses (AProcs (before ++ g_process st :: after)) -> ~ In (g_process st) before -> before ++ after <> [] ->
  hd_error (after ++ before) = Some q -> q <> g_process st ->
  does_and_switches (run p ns dis eval env (dispatch (T "switch"))) st [(CProcesses, AProcs (before ++ g_process st :: after)); line (LSwitch q)] q (Ret None).
Proof. exact switch_next. Qed.
Print Assumptions c107_switch_next.
Theorem c107_switch_alone : forall p ns dis eval env st q, answers env CProcesses (AProcs [q]) ->
  does (run p ns dis eval env (dispatch (T "switch"))) st [(CProcesses, AProcs [q])] (Ret (Some (MText (T "There is only one process!")))).
Proof. exact switch_alone. Qed.
Print Assumptions c107_switch_alone.
(** A current process that is not in the list any more: an exception. *)
Theorem c107_switch_lost : forall p ns dis eval env st l, answers env CProcesses (AProcs l) -> List.length l <> 1%nat -> ~ In (g_process st) l ->
  does (run p ns dis eval env (dispatch (T "switch"))) st [(CProcesses, AProcs l)] (Raise (XErr EValueError)).
Proof. exact switch_lost. Qed.
Print Assumptions c107_switch_lost.
(** switch PID *)
Theorem c107_switch_pid : forall p ns dis eval env t pid st q, t <> [] -> parse p eval env st t = Ok pid -> answers env (CLookup pid) (AObj (Some q)) -> q <> g_process st ->
  does_and_switches (run p ns dis eval env (dispatch (T "switch" ++ t))) st [(CLookup pid, AObj (Some q)); line (LSwitch q)] q (Ret None).
Proof. exact switch_pid. Qed.
Print Assumptions c107_switch_pid.
Theorem c107_switch_same : forall p ns dis eval env t pid st, t <> [] -> parse p eval env st t = Ok pid -> answers env (CLookup pid) (AObj (Some (g_process st))) ->
  does (run p ns dis eval env (dispatch (T "switch" ++ t))) st [(CLookup pid, AObj (Some (g_process st)))] (Ret None).
Proof. exact switch_same. Qed.
Print Assumptions c107_switch_same.
Theorem c107_switch_unknown : forall p ns dis eval env t pid st, t <> [] -> parse p eval env st t = Ok pid -> answers env (CLookup pid) (AObj None) ->
  does (run p ns dis eval env (dispatch (T "switch" ++ t))) st [(CLookup pid, AObj None)] (Ret (Some (MText (T "There is not process " ++ str_int pid)))).
Proof. exact switch_unknown. Qed.
Print Assumptions c107_switch_unknown.
Example c107_switch_ex : let env := fun l => fun (h : list (gcall * ans)) c => match c with CProcesses => AProcs l | CLookup pid => AObj (if pid =? 77 then Some 2%nat else None) | c => ex_env h c end in
  let go := fun l t => run linux_x86_64 linux_signals true py_eval (env l) (dispatch (T t)) ex_state in
  g_process ex_state = 0%nat /\ g_process (fst (go [3; 0; 5]%nat "switch"%string)) = 5%nat /\ g_process (fst (go [3; 5; 0]%nat "switch"%string)) = 3%nat /\
  snd (go [0]%nat "switch"%string) = Ret (Some (MText (T "There is only one process!"))) /\ g_process (fst (go [0; 2]%nat "switch 70+7"%string)) = 2%nat /\
  snd (go [0; 2]%nat "switch 70"%string) = Ret (Some (MText (T "There is not process 70"))).
Proof. vm_compute. auto 10. Qed.
