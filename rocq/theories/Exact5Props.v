(** * Exact5Props: pointers on ARM and PowerPC (C66), the exception of a profiled function (C93). *)
From Coq Require Import ZArith List Ascii String.
From Verif Require Import PyBase Platform RegModel RegSpec RegProofs RegFinal ToolsModel LogModel LogSpec ExactProofs5.
Import ListNotations.
Open Scope Z_scope.

(** ** C66: on 32-bit ARM the stack pointer that is returned is the link register. *)
Theorem c66_arm_exact : forall K p s, p_os p = Linux -> native p -> p_cpu p = ARM32 -> rk_get K = None -> whole p (r_regs s) ->
  exists sz lr sz3 sp, reg_holds p (r_regs s) (T "r14") sz lr /\ reg_holds p (r_regs s) (T "r13") sz3 sp /\ snd (getStackPointer K p s) = Ok lr /\ (snd (getStackPointer K p s) = Ok sp <-> lr = sp).
Proof. exact arm_sp_exact. Qed.
Print Assumptions c66_arm_exact.
Example c66_arm_exact_ex : native linux_arm32 /\ p_cpu linux_arm32 = ARM32 /\ snd (getStackPointer good_kernel linux_arm32 (with_reg linux_arm32 (T "r14") 0x8124)) = Ok 0x8124.
Proof. repeat split; vm_compute; reflexivity. Qed.
(** On PowerPC there is no frame pointer *)
Theorem c66_powerpc_frame : forall K p s, is_powerpc (p_cpu p) = true -> getFramePointer K p s = (s, Err EProcessError).
Proof. exact powerpc_fp. Qed.
Print Assumptions c66_powerpc_frame.

(** ** C93: an exception of the profiled function is kept if and only if a file with the name of the results is there (or it is FileNotFoundError itself). *)
Theorem c93_error_exact : forall A file e dump stats,
  runProfiler file (@Err A e) dump stats = ([(log_warning, T "Run profiler")], false, Err (if file then e else EOSError 2)) /\
  (snd (runProfiler file (@Err A e) dump stats) = Err e <-> file = true \/ e = EOSError 2).
Proof. exact profiler_exact. Qed.
Print Assumptions c93_error_exact.
Example c93_error_exact_ex : snd (runProfiler true (@Err Z EKeyError) (Ok tt) (Ok [])) = Err EKeyError.
Proof. reflexivity. Qed.
