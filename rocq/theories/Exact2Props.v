(** * Exact2Props: exact conditions for claims that do not always hold (C22, C50, C87). *)
From Coq Require Import ZArith List Ascii String.
From Verif Require Import PyBase Platform ProcModel ProcSpec SigModel FaultModel FaultSpec StraceModel StraceSpec StraceProofs4 ExactSpec2 ExactProofs2.
Import ListNotations.
Open Scope Z_scope.

(** ** C22: with a limit, the dump fails if and only if one of the strings that are kept has no "="; without a limit it never does. *)
Theorem c22_fails_exact : forall repr max env keep, max <> 0 -> first_fit max env keep ->
  (format_env repr (Some max) env = Err ETypeError <-> exists x, In x (ProcSpec.selected keep env) /\ ~ In "="%char x) /\
  (forall e, format_env repr (Some max) env = Err e -> e = ETypeError) /\
  (forall m, m = None \/ m = Some 0 -> exists t, format_env repr m env = Ok t).
Proof. exact env_exact. Qed.
Print Assumptions c22_fails_exact.
Example c22_fails_exact_ex : first_fit 4 [T "A=1"; T "oops"] [true; false] /\ first_fit 7 [T "A=1"; T "oops"] [true; true] /\
  format_env (fun t => t) (Some 4) [T "A=1"; T "oops"] = Ok (T "A=1, ... (skip 1 vars)") /\ format_env (fun t => t) (Some 7) [T "A=1"; T "oops"] = Err ETypeError.
Proof. split; [|split; [|split; reflexivity]]; (split; [reflexivity|]); intros i v; do 2 (destruct i as [|i]; [cbn; intros [= <-]; reflexivity|]); destruct i; discriminate. Qed.

(** ** C50: --syscalls is rejected if and only if a name that is not in the table is followed by one not listed before. *)
Theorem c50_unknown_exact : forall names socket_names o,
  (exists lines, only_filter names socket_names o = inr lines) <->
  exists pre a mid b post, s_syscalls o = Some (join [","%char] (pre ++ a :: mid ++ b :: post)) /\ (forall x, In x (pre ++ a :: mid ++ b :: post) -> ~ In ","%char x) /\
    strip a <> [] /\ ~ In (strip a) (map snd names) /\ strip b <> [] /\ ~ In (strip b) (map strip (pre ++ a :: mid)).
Proof. exact rejected_exact. Qed.
Print Assumptions c50_unknown_exact.
Example c50_unknown_exact_ex : accepted "opne,close"%string = None /\ accepted "opne, opne,"%string = Some [T "opne"].
Proof. split; vm_compute; reflexivity. Qed.

(** ** C87: what is said of a child that exits, whatever its code; it is right for the code 0 only. *)
Theorem c87_exit_exact : forall p ns tg s c, running_linux p = true -> tg_siginfo tg = Ok s -> si_status s = chld_status (ChildExited c) -> 0 <= c < 256 ->
  exists r, childExit p ns tg = Ok r /\ r_text r = T "Child process " ++ str_int (si_pid s) ++ wrong_exit_text ns c /\
  (r_text r = chld_text ns (si_pid s) (ChildExited c) <-> c = 0).
Proof. exact exit_exact. Qed.
Print Assumptions c87_exit_exact.
Example c87_exit_exact_ex : wrong_exit_text linux_signals 139 = T " killed by signal SIGSEGV (core dumped)" /\ wrong_exit_text linux_signals 255 = T " exited normally (core dumped)" /\
  wrong_exit_text linux_signals 2 = T " killed by signal SIGINT".
Proof. repeat split; vm_compute; reflexivity. Qed.
