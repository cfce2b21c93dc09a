(** * LeaveProps: C113, letting a process go. *)
From Coq Require Import ZArith List Ascii String Bool Lia.
From Verif Require Import PyBase Platform CallModel MemModel MemSpec MemExamples StructModel RegModel RegSpec RegFinal
  BreakModel BreakSpec BreakProofs BreakFinal LeaveModel LeaveSpec LeaveProofs.
Import ListNotations.
Open Scope Z_scope.

(** A process that is not traced gets no breakpoint, and nothing changes. *)
Theorem c113_no_new : forall E refused address size s, l_attached s = false ->
  createBreakpoint E refused address size s = (s, Err (match findBreakpoint address (l_b s) with Some _ => EProcessError | None => refused end)).
Proof. exact no_new. Qed.
Print Assumptions c113_no_new.
(** The destructor of a process hides the errors of ptrace, and only these. *)
Theorem c113_hidden : forall e s, l_attached s = true -> b_running (l_b s) = true ->
  (snd (process_del (Err e) s) = Ok tt <-> (exists n, e = EPtraceError n) \/ e = EProcessError \/ e = EDebuggerError) /\
  (snd (process_del (Err e) s) = Ok tt \/ snd (process_del (Err e) s) = Err e).
Proof. exact hidden. Qed.
Print Assumptions c113_hidden.
(** detaching changes nothing in the memory of the process, and nothing done with the objects afterwards does *)
Theorem c113_memory : forall E K s reply l x,
  memory (uses E K (fst (detach reply s)) l) x = memory s x.
Proof. exact leave_memory. Qed.
Print Assumptions c113_memory.
Theorem c113_request : forall reply s,
  l_detaches (fst (detach reply s)) = (l_detaches s + (if l_attached s && b_running (l_b s) then 1 else 0))%nat /\
  snd (detach reply s) = (if l_attached s && b_running (l_b s) then reply else Ok tt) /\
  (l_registered (fst (detach reply s)) = true <->
   l_registered s = true /\ (l_attached s = false \/ b_running (l_b s) = true /\ exists e, reply = Err e)).
Proof. exact detach_requests. Qed.
Print Assumptions c113_request.
Theorem c113_once : forall E K l s, l_detaches s = 0%nat -> (l_detaches (uses E K s l) <= 1)%nat.
Proof. exact uses_once. Qed.
Print Assumptions c113_once.
Theorem c113_destroyed : forall E K reply s,
  (forall x, memory (fst (destroy E K reply s)) x = memory s x) /\
  (snd (destroy E K reply s) = Ok tt \/ exists e, reply = Err e /\ snd (destroy E K reply s) = Err e /\
     forall n, e <> EPtraceError n /\ e <> EProcessError /\ e <> EDebuggerError) /\
  (forall a id bp, In (a, id) (b_dict (l_b s)) -> nth_error (b_objs (l_b (fst (destroy E K reply s)))) id = Some bp ->
     bp_installed bp = false).
Proof. exact destroy_spec. Qed.
Print Assumptions c113_destroyed.
Theorem c113_late_removal : forall E K refused id ip s bp, l_attached s = false -> b_running (l_b s) = true ->
  nth_error (b_objs (l_b s)) id = Some bp -> bp_installed bp = true ->
  let '(s', r) := LeaveModel.desinstall E K true refused id ip s in
  r = Err refused /\ b_mem (l_b s') = b_mem (l_b s) /\ b_dict (l_b s') = b_dict (l_b s) /\
  (exists bp', nth_error (b_objs (l_b s')) id = Some bp' /\ bp_installed bp' = false) /\
  forall ip', LeaveModel.desinstall E K true refused id ip' s' = (s', Ok tt).
Proof. exact late_removal. Qed.
Print Assumptions c113_late_removal.
(** all breakpoints removed before the detach: the process is left as it was found *)
Theorem c113_clean_partial : forall E K s l reply l',
  plain E -> attached_now s -> well_behaved E K (l_b s) l ->
  (forall id bp, nth_error (b_objs (l_b (uses E K s (map plain_use l)))) id = Some bp -> bp_installed bp = false) ->
  forall x, memory (uses E K (fst (detach reply (uses E K s (map plain_use l)))) l') x = memory s x.
Proof. exact clean_leave. Qed.
Print Assumptions c113_clean_partial.
(** breakpoints left installed: no object is left that says so, the trap is *)
Theorem c113_traps_refuted : exists E K s u reply, plain E /\ attached_now s /\ p_cpu (e_p E) = X86_64 /\
  let s1 := uses E K s u in let s2 := fst (destroy E K reply s1) in
  l_detaches s2 = 1%nat /\ snd (destroy E K reply s1) = Ok tt /\ (forall id bp, nth_error (b_objs (l_b s2)) id = Some bp -> bp_installed bp = false) /\
  exists x b, memory s x = Some b /\ b <> z2b 0xcc /\ memory s2 x = Some (z2b 0xcc).
Proof. exact traps_left. Qed.
Print Assumptions c113_traps_refuted.
Example c113_ex :
  let E := xenv linux_x86_64 in let s := LState (xstate page_mem linux_x86_64) true true 0 in
  let l := [Create 4100 None; Create 4104 (Some 2); Remove 0; Remove 1] in
  attached_now s /\
  (forall id bp, nth_error (b_objs (l_b (uses E good_kernel s (map plain_use l)))) id = Some bp -> bp_installed bp = false) /\
  let s' := uses E good_kernel s (map plain_use [Create 4100 None; Create 4104 (Some 2); Remove 0]) in
  let s2 := fst (detach (Err (EPtraceError (Some 3))) s') in
  memory s2 4100 = Some (z2b 4) /\ memory s2 4104 = Some (z2b 0xcc) /\ l_registered s2 = true /\ l_attached s2 = false /\
  snd (LeaveModel.desinstall E good_kernel true (EPtraceError (Some 3)) 1 false s2) = Err (EPtraceError (Some 3)) /\
  snd (breakpoint_del E good_kernel true (EPtraceError (Some 3)) 1 s2) = Ok tt /\
  snd (destroy E good_kernel (Err (EPtraceError (Some 3))) s') = Ok tt /\
  snd (destroy E good_kernel (Err EKeyboardInterrupt) s') = Err EKeyboardInterrupt.
Proof.
  cbv zeta. split; [repeat split; reflexivity|]. split.
  - intros [|[|[|id]]] bp H; vm_compute in H; inversion H; reflexivity.
  - repeat split; vm_compute; reflexivity.
Qed.
