(** * Exact9Props: detach() refused by the kernel (C28). *)
From Coq Require Import ZArith List Ascii String Bool.
From Verif Require Import PyBase Platform DbgModel DbgSpec DbgProofs2 DbgProofs4 DbgProofs5 DbgFinal DbgFinal2 ExactProofs9.
Import ListNotations.
Open Scope Z_scope.

(** Whenever PTRACE_DETACH fails: the registry is unchanged, the object counts as detached, and later calls do nothing whatever the kernel would answer *)
Theorem c28_failure_exact : forall K st id q e, nth_error (d_procs st) id = Some q -> pr_is_attached q = true -> pr_running q = true ->
  k_do K (List.length (d_calls st)) (KDetach id (pr_pid q)) = Err e ->
  exists st', detach K id st = (st', Raise (XErr e)) /\ d_list st' = d_list st /\ d_dict st' = d_dict st /\ ~ attached st' id /\
    d_calls st' = KDetach id (pr_pid q) :: d_calls st /\ forall K', detach K' id st' = (st', Ret tt).
Proof. exact detach_refused. Qed.
Print Assumptions c28_failure_exact.
Example c28_failure_ex : let K := refusing is_detach [0; stop_by 19] in let st := run K [OpAdd 5 100 false None false] in
  exists q e, nth_error (d_procs st) 0 = Some q /\ pr_is_attached q = true /\ pr_running q = true /\ k_do K (List.length (d_calls st)) (KDetach 0 (pr_pid q)) = Err e.
Proof. cbv zeta. do 2 eexists. split; [vm_compute; reflexivity|]. repeat split; vm_compute; reflexivity. Qed.
