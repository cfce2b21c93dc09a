(** * FateProps: C132, the end of a debugged program. *)
From Coq Require Import ZArith List String Bool.
From Verif Require Import PyBase Platform CallModel MemModel MemSpec StructModel RegModel RegSpec RegFinal BreakModel BreakSpec BreakFinal SessionModel SessionSpec
  SessionExamples LinkSpec.
From Verif Require Import SigModel DbgModel PyEval GdbModel EffectSpec LinkExamples LiveSpec LiveExamples FateSpec FateProofs3 FateExamples.
Import ListNotations.
Open Scope Z_scope.

(** ** C132 *)
(** When the debugger says that the program ended, it did end, with the exit code or signal the debugger shows, and it ends so without debugger
    when the same signals are delivered, which are all the signals that were reported. *)
Theorem c132_end_partial : forall E K exec G F ns dis eval env g st ks l g' st' k l1 id s c g1, fresh_process E K st -> g_process g = O -> g_last g = [] -> g_hist g = [] ->
  typed_s E K exec G ns dis eval env g (World st Stopped) ks l g' (World st' Stopped) -> last_command E K exec G F ns dis eval env g' st' k l1 id s c g1 ->
  let i := Ideal (s_mem (b_mem st)) (r_regs (b_regs st)) [] in
  orderly E exec G i None (l ++ l1) -> (forall i' o d n a, proceed E exec G i None l i' o d n -> In a l1 -> finale E exec G F i' o a) ->
  exists e, ProcessExit id s c = exit_event e /\ finishes exec G F (s_mem (b_mem st)) (r_regs (b_regs st)) (delivered (g_hist g1)) e /\ reported (g_hist g1) = delivered (g_hist g1) /\
    In (CLog (LEvent (exit_event e)), AUnit) (g_hist g1).
Proof. exact fate_undebugged. Qed.
Print Assumptions c132_end_partial.
(** If the user steps before a signal is delivered, the program may end although it never ends without debugger. *)
Theorem c132_end_refuted : exists E K exec G F ns dis eval env g st ks l g' st' k l1 id s c g1, fresh_process E K st /\ g_process g = O /\ g_last g = [] /\ g_hist g = [] /\
  typed_s E K exec G ns dis eval env g (World st Stopped) ks l g' (World st' Stopped) /\ last_command E K exec G F ns dis eval env g' st' k l1 id s c g1 /\
  forall d e, ~ finishes exec G F (s_mem (b_mem st)) (r_regs (b_regs st)) d e.
Proof. exact ends_otherwise. Qed.
Print Assumptions c132_end_refuted.
(** A breakpoint, and a signal on the way to it that kills the program *)
Example c132_ex : fresh_process (xenv P) good_kernel (state 8000 4096) /\
  (exists g, typed_s (xenv P) good_kernel (nops P) again linux_signals false py_eval deadly_env (GState O [] [] None []) (World (state 8000 4096) Stopped)
     (map dispatch [T "break 4098"; T "cont"]) [Break 4098 None; Continue] g (World hit_state Stopped) /\
   exists g1, last_command (xenv P) good_kernel (nops P) again deadly linux_signals false py_eval deadly_env g hit_state (dispatch (T "cont")) [Continue] O (Some 10) None g1 /\ delivered (g_hist g1) = [10]) /\
  orderly (xenv P) (nops P) again (Ideal (code 8000) (at_ip 4096) []) None ([Break 4098 None; Continue] ++ [Continue]) /\
  forall i o a, finale (xenv P) (nops P) again deadly i o a.
Proof. split; [apply fresh_state; vm_compute; reflexivity|]. split; [exact deadly_typed|]. split; [exact live_orderly|exact deadly_finale]. Qed.
