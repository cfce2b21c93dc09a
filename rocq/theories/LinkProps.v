(** * LinkProps: C129, programs debugged by typing commands. *)
From Coq Require Import ZArith List String Bool.
From Verif Require Import PyBase Platform CallModel MemModel MemSpec StructModel RegModel RegSpec RegFinal BreakModel BreakSpec BreakFinal SessionModel SessionSpec
  SessionExamples LinkSpec.
From Verif Require Import SigModel DbgModel PyEval GdbModel EffectSpec LinkProofs3 LinkExamples.
Import ListNotations.
Open Scope Z_scope.

(** ** C129 *)
(** The calls of a command of gdb.py are the actions the user asked for, and no others. *)
Theorem c129_command : forall E K exec ns dis eval env g k g1 o h st w1, g_process g = O -> g_last g = [] -> plain_command k ->
  GdbModel.run (e_p E) ns dis eval env k g = (g1, Ret o) -> g_hist g1 = h ++ g_hist g -> explained E K exec (World st Stopped) h w1 ->
  (exists l st1, w1 = World st1 Stopped /\ means (reads_at E eval env g) k h l /\ (forall l', means (reads_at E eval env g) k h l' -> l' = l) /\ watched E K exec st l st1) /\
  g_process g1 = O /\ g_last g1 = [].
Proof. exact command_acts. Qed.
Print Assumptions c129_command.
(** What the user sees of the program is what the ideal debugger, which changes nothing in it, shows. *)
Theorem c129_session_partial : forall E K exec ns dis eval env g st ks l g' w', fresh_process E K st -> g_process g = O -> g_last g = [] ->
  typed E K exec ns dis eval env g (World st Stopped) ks l g' w' ->
  let i := Ideal (s_mem (b_mem st)) (r_regs (b_regs st)) [] in
  tame E exec i l -> exists i' st', w' = World st' Stopped /\ ideals E exec i l i' /\ in_state st' i'.
Proof. exact typed_sound. Qed.
Print Assumptions c129_session_partial.
(** The registers and, outside of breakpoints, the memory are those of a run without debugger. *)
Theorem c129_undebugged_partial : forall E K exec ns dis eval env g st ks l g' w', fresh_process E K st -> g_process g = O -> g_last g = [] ->
  typed E K exec ns dis eval env g (World st Stopped) ks l g' w' -> tame E exec (Ideal (s_mem (b_mem st)) (r_regs (b_regs st)) []) l ->
  exists st' k, w' = World st' Stopped /\ reaches (e_p E) exec [] (s_mem (b_mem st)) (r_regs (b_regs st)) k (r_regs (b_regs st')) /\
    (forall x, (forall bp, live st' bp -> ~ covers bp x) -> k_byte (s_mem (b_mem st')) x = k_byte k x).
Proof. exact typed_undebugged. Qed.
Print Assumptions c129_undebugged_partial.
(** Reading memory and registers is looking. *)
Theorem c129_reading : forall E K st a n name,
  seen st (with_mem st (fst (readBytes E a n (b_mem st)))) /\ seen st (with_regs st (fst (getreg K (e_p E) name (b_regs st)))).
Proof. exact (fun E K st a n name => conj (readBytes_seen E st a n) (getreg_seen K (e_p E) name st)). Qed.
Print Assumptions c129_reading.
Example c129_ex : fresh_process (xenv P) good_kernel (state 8000 4096) /\
  exists g st', typed (xenv P) good_kernel (nops P) linux_signals false py_eval tiny_env (GState O [] [] None []) (World (state 8000 4096) Stopped)
    (map dispatch [T "break 4098"; T "cont"; T "print 4098"]) [Break 4098 None; Continue] g (World st' Stopped) /\ pc P (r_regs (b_regs st')) 4098 /\ b_dict st' = [] /\
  tame (xenv P) (nops P) (Ideal (code 8000) (at_ip 4096) []) [Break 4098 None; Continue].
Proof.
  split; [apply fresh_state; vm_compute; reflexivity|]. destruct tiny_typed as (g & st' & T & H1 & H2). exists g, st'. split; [exact T|]. split; [exact H1|]. split; [exact H2|exact tiny_tame].
Qed.
