(** * SessionProps: C125, programs that are debugged with breakpoints. *)
From Coq Require Import ZArith List Bool.
From Verif Require Import PyBase Platform CallModel MemModel MemSpec StructModel RegModel RegSpec RegFinal BreakModel BreakSpec BreakFinal SessionModel SessionSpec
  SessionProofs4 SessionProofs5 SessionExamples.
Import ListNotations.
Open Scope Z_scope.

(** ** C125 *)
(** What the debugger does is what the ideal debugger, which changes nothing in the program, does *)
Theorem c125_sound_partial : forall E K exec st l st', fresh_process E K st ->
  let i := Ideal (s_mem (b_mem st)) (r_regs (b_regs st)) [] in
  tame E exec i l -> session E K exec st l st' -> exists i', ideals E exec i l i' /\ in_state st' i'.
Proof. exact sound. Qed.
Print Assumptions c125_sound_partial.
(** and whatever the ideal debugger can see can be seen *)
Theorem c125_complete_partial : forall E K exec st l i', fresh_process E K st ->
  let i := Ideal (s_mem (b_mem st)) (r_regs (b_regs st)) [] in
  tame E exec i l -> ideals E exec i l i' -> exists st', session E K exec st l st' /\ in_state st' i'.
Proof. exact complete. Qed.
Print Assumptions c125_complete_partial.
(** The registers and, outside of breakpoints, the memory are those of a run without debugger *)
Theorem c125_undebugged_partial : forall E K exec st l st', fresh_process E K st ->
  tame E exec (Ideal (s_mem (b_mem st)) (r_regs (b_regs st)) []) l -> session E K exec st l st' ->
  exists k, reaches (e_p E) exec [] (s_mem (b_mem st)) (r_regs (b_regs st)) k (r_regs (b_regs st')) /\
    (forall x, (forall bp, live st' bp -> ~ covers bp x) -> k_byte (s_mem (b_mem st')) x = k_byte k x) /\
    (forall x, k_pokable (s_mem (b_mem st')) x = k_pokable k x).
Proof. exact undebugged. Qed.
Print Assumptions c125_undebugged_partial.
(** A program that jumps into the middle of a breakpoint of two bytes is resumed at its start *)
Theorem c125_inside_refuted : exists E K exec st, fresh_process E K st /\ strays E K exec st [Break 4100 (Some 2); Continue].
Proof. exists (xenv P), good_kernel, (nops P), (state 4101 4101). split; [apply fresh_state; vm_compute; reflexivity|exact inside_strays]. Qed.
Print Assumptions c125_inside_refuted.
(** A step stopped by another breakpoint moves the program to the end of the step *)
Theorem c125_step_refuted : exists E K exec st, fresh_process E K st /\ strays E K exec st [Break 4096 None; Step 4100 None].
Proof. exists (xenv P), good_kernel, (nops P), (state 4096 4096). split; [apply fresh_state; vm_compute; reflexivity|exact step_strays]. Qed.
Print Assumptions c125_step_refuted.
(** A single step on a breakpoint executes the trap and skips the first byte of the instruction *)
Theorem c125_stepi_refuted : exists E K exec st, fresh_process E K st /\ strays E K exec st [Break 4096 None; Stepi].
Proof. exists (xenv P), good_kernel, (nops P), (state 4096 4096). split; [apply fresh_state; vm_compute; reflexivity|exact stepi_strays]. Qed.
Print Assumptions c125_stepi_refuted.
(** The breakpoint that delete says it removed covers the address; it says that there is none when no breakpoint does *)
Theorem c125_deleted : forall E K a st st' o, delete_breakpoint E K a st = (st', Ok o) ->
  match o with
  | Some id => exists bp, nth_error (b_objs st) id = Some bp /\ live st bp /\ covers bp a /\ desinstall E K id false st = (st', Ok tt)
  | None => st' = st /\ forall bp, live st bp -> ~ covers bp a
  end.
Proof. exact delete_result. Qed.
Print Assumptions c125_deleted.
(** So does a stop at a breakpoint, for the address of the trap *)
Theorem c125_hit : forall E K st st' o, hit_breakpoint E K st = (st', Ok o) -> exists rg ip, getInstrPointer K (e_p E) (b_regs st) = (rg, Ok ip) /\
  let a := if is_powerpc (p_cpu (e_p E)) then ip else ip - 1 in
  match o with
  | Some id => exists bp, nth_error (b_objs st) id = Some bp /\ live st bp /\ covers bp a /\ desinstall E K id true (with_regs st rg) = (st', Ok tt)
  | None => st' = with_regs st rg /\ forall bp, live st bp -> ~ covers bp a
  end.
Proof. exact hit_result. Qed.
Print Assumptions c125_hit.
(** A step whose breakpoint cannot be set leaves what the attempt left; otherwise it is the break, the run and the removal *)
Theorem c125_step_is : forall E K a size go st,
  (forall st1 e, createBreakpoint E a size st = (st1, Err e) -> step_over E K a size go st = (st1, Err e)) /\
  (forall st1 id, createBreakpoint E a size st = (st1, Ok id) -> step_over E K a size go st = desinstall E K id true (go st1)).
Proof. exact step_is. Qed.
Print Assumptions c125_step_is.
Example c125_ex : fresh_process (xenv P) good_kernel (state 8000 4096) /\
  tame (xenv P) (nops P) (Ideal (s_mem (b_mem (state 8000 4096))) (r_regs (b_regs (state 8000 4096))) [])
    [Step 4098 None; Stepi; Break 4101 None; Break 4104 None; Continue; Delete 4104] /\
  exists st', session (xenv P) good_kernel (nops P) (state 8000 4096) [Step 4098 None; Stepi; Break 4101 None; Break 4104 None; Continue; Delete 4104] st' /\
  pc P (r_regs (b_regs st')) 4101 /\ (forall bp, ~ live st' bp) /\ forall x, k_byte (s_mem (b_mem st')) x = k_byte (code 8000) x.
Proof. split; [apply fresh_state; vm_compute; reflexivity|]. split; [exact session_tame|exact session_runs]. Qed.
