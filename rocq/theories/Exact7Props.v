(** * Exact7Props: the sub-registers that are read wrongly (C08). *)
From Coq Require Import ZArith List Ascii String Bool.
From Verif Require Import PyBase Platform IntSpec StructModel RegModel RegSpec RegFinal ExactProofs7.
Import ListNotations.
Open Scope Z_scope.

(** On x86_64, whatever the registers hold: eax, ebx, ecx and edx are the upper halves of rax, rbx, rcx and rdx *)
Theorem c08_eax_exact : forall K p s c sz v, p_cpu p = X86_64 -> rk_get K = None -> whole p (r_regs s) -> In c (T "abcd") -> reg_holds p (r_regs s) (main_name p c) sz v ->
  exists s', getreg K p (T "e" ++ [c] ++ T "x") s = (s', Ok (v / 2 ^ 32)) /\ r_regs s' = r_regs s.
Proof. exact eax_exact. Qed.
Print Assumptions c08_eax_exact.
(** iopl is twice its upper bit: right exactly if its lower bit is zero *)
Theorem c08_iopl_exact : forall K p s sz v, is_intel (p_cpu p) = true -> rk_get K = None -> whole p (r_regs s) -> reg_holds p (r_regs s) (T "eflags") sz v ->
  exists s', getreg K p (T "iopl") s = (s', Ok (2 * bits v 13 1)) /\ r_regs s' = r_regs s /\ (2 * bits v 13 1 = bits v 12 2 <-> bits v 12 1 = 0).
Proof. exact iopl_exact. Qed.
Print Assumptions c08_iopl_exact.
Example c08_exact_ex : let s := with_reg linux_x86_64 (T "rbx") 0x1122334455667788 in let f := with_reg linux_x86_64 (T "eflags") 0x3246 in
  main_name linux_x86_64 "b"%char = T "rbx" /\ snd (getreg good_kernel linux_x86_64 (T "ebx") s) = Ok 0x11223344 /\
  snd (getreg good_kernel linux_x86_64 (T "iopl") f) = Ok 2 /\ bits 0x3246 12 2 = 3.
Proof. vm_compute. auto. Qed.
