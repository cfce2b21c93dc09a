(** * EffectProps: what the commands of gdb.py may do (C128). *)
From Coq Require Import ZArith List Ascii String Bool.
From Verif Require Import PyBase Platform SigModel DbgModel PyEval ExprModel GdbModel EffectSpec EffectProofs EffectProofs2 GdbCmdProps.
From Verif Require CallModel MemModel RegModel RegProofs.
Import ListNotations.
Open Scope Z_scope.

(** ** C128 *)
(** Whatever the environment answers, and however the command ends, it makes only the calls it may make. *)
Theorem c128_effects : forall p ns dis eval env k st,
  exists h, g_hist (fst (run p ns dis eval env k st)) = h ++ g_hist st /\ lawful (g_process st) k h.
Proof. exact run_lawful. Qed.
Print Assumptions c128_effects.
(** No process is resumed twice by a command. *)
Theorem c128_once : forall p ns dis eval env k st h, g_hist (fst (run p ns dis eval env k st)) = h ++ g_hist st ->
  (forall l, In (CProcesses, AProcs l) h -> NoDup l) -> NoDup (resumed h).
Proof. exact run_once. Qed.
Print Assumptions c128_once.
(** The commands that show something only look at the current process. *)
Theorem c128_looking : forall p ns dis eval env k st, looking k = true ->
  exists h, g_hist (fst (run p ns dis eval env k st)) = h ++ g_hist st /\ Forall (fun x => looks (g_process st) (fst x)) h.
Proof. exact run_looking. Qed.
Print Assumptions c128_looking.
(** So does a line of such commands. *)
Theorem c128_line : forall p ns dis eval env l, Forall (fun c => looking (dispatch (strip c)) = true) l -> forall st,
  exists h, g_hist (fst (execute_all p ns dis eval env l st)) = h ++ g_hist st /\ Forall (fun x => exists cur, looks cur (fst x)) h.
Proof. exact line_looking. Qed.
Print Assumptions c128_line.
(** The state of the debugger *)
Theorem c128_state : forall p ns dis eval env k st st' o, run p ns dis eval env k st = (st', o) ->
  (changes_process k = false -> g_process st' = g_process st) /\ (changes_signals k = false -> g_last st' = g_last st) /\
  (changes_terms k = false -> g_follow st' = g_follow st) /\ g_previous st' = g_previous st.
Proof. exact run_state. Qed.
Print Assumptions c128_state.
(** The functions of the library that read memory or registers change neither. *)
Theorem c128_memory : forall E a n c s,
  MemModel.s_mem (fst (MemModel.readWord E a s)) = MemModel.s_mem s /\ MemModel.s_mem (fst (MemModel.readBytes E a n s)) = MemModel.s_mem s /\
  MemModel.s_mem (fst (MemModel.readStruct E a n s)) = MemModel.s_mem s /\ MemModel.s_mem (fst (MemModel.readArray E a n c s)) = MemModel.s_mem s /\
  MemModel.s_mem (fst (MemModel.readCString E a n c s)) = MemModel.s_mem s.
Proof.
  exact (fun E a n c s => conj (readWord_mem E a s) (conj (MemProofs.readBytes_mem E a n s) (conj (readStruct_mem E a n s) (conj (readArray_mem E a n c s) (readCString_mem E a n c s))))).
Qed.
Print Assumptions c128_memory.
Theorem c128_registers : forall K p name s,
  RegModel.r_regs (fst (RegModel.getregs K p s)) = RegModel.r_regs s /\ RegModel.r_regs (fst (RegModel.getreg K p name s)) = RegModel.r_regs s.
Proof. exact (fun K p name s => conj (RegProofs.getregs_regs K p s) (RegProofs.getreg_regs K p name s)). Qed.
Print Assumptions c128_registers.
Example c128_ex :
  resumed (g_hist (fst (ex_run "cont"))) = [1; 0]%nat /\ resumed (g_hist (fst (ex_run "step"))) = [0]%nat /\ resumed (g_hist (fst (ex_run "print 4096"))) = [] /\
  looking (dispatch (T "print 4096")) = true /\ looking (dispatch (T "where $eip")) = true /\ looking (dispatch (T "set $eax=1")) = false /\
  List.length (g_hist (fst (execute_all linux_x86_64 linux_signals true py_eval ex_env [T "print 4096"; T " where 1 2"; T "breakpoints "] ex_state))) = 9%nat.
Proof. vm_compute. repeat split. Qed.
