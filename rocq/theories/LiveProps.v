(** * LiveProps: C131, debugged programs that get signals. *)
From Coq Require Import ZArith List String Bool.
From Verif Require Import PyBase Platform CallModel MemModel MemSpec StructModel RegModel RegSpec RegFinal BreakModel BreakSpec BreakFinal SessionModel SessionSpec
  SessionExamples LinkSpec.
From Verif Require Import SigModel DbgModel PyEval GdbModel EffectSpec LinkExamples LiveSpec LiveProofs LiveProofs3 LiveProofs5 LiveExamples.
Import ListNotations.
Open Scope Z_scope.

(** ** C131 *)
(** What the user sees of the program is what the ideal debugger shows: it stops where a signal arises and delivers it when the program is continued. *)
Theorem c131_session_partial : forall E K exec G ns dis eval env g st ks l g' w', fresh_process E K st -> g_process g = O -> g_last g = [] -> g_hist g = [] ->
  typed_s E K exec G ns dis eval env g (World st Stopped) ks l g' w' ->
  let i := Ideal (s_mem (b_mem st)) (r_regs (b_regs st)) [] in
  orderly E exec G i None l -> exists i' st' o, w' = World st' Stopped /\ proceed E exec G i None l i' o (delivered (g_hist g')) (reported (g_hist g')) /\ in_state st' i' /\ g_last g' = last_signal o.
Proof. exact signals_ideal. Qed.
Print Assumptions c131_session_partial.
(** The registers and, outside of breakpoints, the memory are those of a run without debugger in which the same signals are delivered.  Every
    signal that was reported was delivered, in this order, but perhaps the last one: it is the one to deliver next, and would be delivered now. *)
Theorem c131_undebugged_partial : forall E K exec G ns dis eval env g st ks l g' w', fresh_process E K st -> g_process g = O -> g_last g = [] -> g_hist g = [] ->
  typed_s E K exec G ns dis eval env g (World st Stopped) ks l g' w' -> orderly E exec G (Ideal (s_mem (b_mem st)) (r_regs (b_regs st)) []) None l ->
  exists st' k o, w' = World st' Stopped /\ lives exec G (s_mem (b_mem st)) (r_regs (b_regs st)) (delivered (g_hist g')) k (r_regs (b_regs st')) /\
    (forall x, (forall bp, live st' bp -> ~ covers bp x) -> k_byte (s_mem (b_mem st')) x = k_byte k x) /\
    g_last g' = last_signal o /\ reported (g_hist g') = delivered (g_hist g') ++ pending o /\ (forall s, o = Some s -> comes G s k (r_regs (b_regs st'))).
Proof. exact signals_undebugged. Qed.
Print Assumptions c131_undebugged_partial.
(** A signal is lost if the user steps before it is delivered and the step is interrupted by another signal. *)
Theorem c131_lost_refuted : exists E K exec G ns dis eval env g st ks l g' st', fresh_process E K st /\ g_process g = O /\ g_last g = [] /\ g_hist g = [] /\
  typed_s E K exec G ns dis eval env g (World st Stopped) ks l g' (World st' Stopped) /\ reported (g_hist g') = [10; 12] /\ delivered (g_hist g') = [] /\ g_last g' = [(O, 12)].
Proof. exact signal_lost. Qed.
Print Assumptions c131_lost_refuted.
(** A signal is delivered too late if the user steps before it is delivered: the program then goes where it never goes without debugger. *)
Theorem c131_late_refuted : exists E K exec G ns dis eval env g st ks l g' st', fresh_process E K st /\ g_process g = O /\ g_last g = [] /\ g_hist g = [] /\
  typed_s E K exec G ns dis eval env g (World st Stopped) ks l g' (World st' Stopped) /\ delivered (g_hist g') = [10] /\
  forall d k, ~ lives exec G (s_mem (b_mem st)) (r_regs (b_regs st)) d k (r_regs (b_regs st')).
Proof. exact signal_late. Qed.
Print Assumptions c131_late_refuted.
(** A breakpoint, a signal on the way to it, and its handler *)
Example c131_ex : fresh_process (xenv P) good_kernel (state 8000 4096) /\
  exists g st', typed_s (xenv P) good_kernel (nops P) again linux_signals false py_eval live_env (GState O [] [] None []) (World (state 8000 4096) Stopped)
    (map dispatch [T "break 4098"; T "cont"; T "cont"]) [Break 4098 None; Continue; Continue] g (World st' Stopped) /\ delivered (g_hist g) = [10] /\
    pc P (r_regs (b_regs st')) 4098 /\ b_dict st' = [] /\
  orderly (xenv P) (nops P) again (Ideal (code 8000) (at_ip 4096) []) None [Break 4098 None; Continue; Continue].
Proof.
  split; [apply fresh_state; vm_compute; reflexivity|]. destruct live_typed as (g & st' & T & H1 & H2 & H3). exists g, st'. split; [exact T|]. split; [exact H1|]. split; [exact H2|]. split; [exact H3|exact live_orderly].
Qed.
