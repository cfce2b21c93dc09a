From Coq Require Import ZArith List Ascii String Bool Lia.
From Verif Require Import PyBase PyFacts Platform IntModel IntSpec IntProofs RegModel RegSpec SigModel TabModel TabSpec TabProofs ArgModel ArgSpec ArgProofs ArgProofs3 DbgModel DbgSpec DbgProofs DbgProofs2 DbgProofs3 DbgProofs4 DbgProofs5 DbgFinal DbgFinal2 SysModel SysSpec SysProofs SysProofs2.
Import ListNotations.
Open Scope Z_scope.

Lemma registers_exist p r : p_os p = Linux -> native p -> p_cpu p <> OtherCPU ->
  (abi_number (p_cpu p) = Some r \/ In r (abi_arguments (p_cpu p)) \/ RETURN_VALUE_REGISTER p = Ok r) -> In r (REGISTER_NAMES p).
Proof.
  intros Ho Hn Hc H.
  assert (existsb (text_eqb r) (REGISTER_NAMES p) = true) as He; [|apply existsb_exists in He as (x & Hx & E); apply text_eqb_eq in E; now subst].
  destruct p as [o c big w]. cbn in Ho. subst o. unfold native in Hn. cbn in Hn.
  destruct c; cbn in Hc; try congruence; subst w; destruct big;
    (destruct H as [H|[H|H]]; [| |];
     [cbn in H; injection H as <-; vm_compute; reflexivity
     |cbn in H; repeat (destruct H as [<-|H]; [vm_compute; reflexivity|]); destruct H
     |cbn in H; injection H as <-; vm_compute; reflexivity]).
Qed.
Definition regs_of (l : list (text * Z)) : registers := fun name => match dget text_eqb name l with Some x => Ok x | None => Err EAttributeError end.
Definition nowhere : view := View (fun _ _ => Err (EPtraceError (Some 5))) (fun _ => Err (EPtraceError (Some 5))) (fun _ _ => Err (EPtraceError (Some 5))).
Definition ENOENT_only : list (Z * text) := [(2, T "ENOENT")].
Definition strerror_ex (_ : Z) : text := T "No such file or directory".
(** close(3): enter and exit stops on x86-64 *)
Definition close_regs : registers := regs_of (combine (T "orig_rax" :: abi_arguments X86_64) [3; 7; 1; 2; 3; 4; 5]).
Definition close_stop (result : Z) : stop := Stop (Ok close_regs) nowhere (Ok 0) (Ok result).
Definition execve_regs : registers := regs_of (combine (T "orig_rax" :: abi_arguments X86_64) [59; 0; 0; 0; 0; 0; 0]).
Definition execve_stop (result : Z) : stop := Stop (Ok execve_regs) nowhere (Ok 0) (Ok result).
Definition one_process (statuses : list Z) : dstate := run (scripted statuses) [OpAdd 5 100 true None false].
Notation run_ex statuses := (run_inputs linux_x86_64 no_names repr_ascii ENOENT_only strerror_ex (scripted statuses) true None default_options 5 0%nat).

(** execve() fails with ENOENT: there is no SIGTRAP to skip, and the stop of the next call (close) is swallowed *)
Definition failed_exec : list Z := [stop_by 19; 0; 0; stop_by 133].
Lemma exec_failure_swallows : exists d s' d' c1 c2,
  reachable (scripted failed_exec) linux_x86_64 d /\ d_trace_exec d = false /\
  run_ex failed_exec [IStop (execve_stop 0); IStop (execve_stop (2 ^ 64 - 2))] (cleared, d) = Some ((s', d'), [Some c1; Some c2]) /\
  f_name (c_func c2) = T "execve" /\ c_result c2 = Some (-2) /\
  d_calls d' = [KWait 100 0; KSyscall 0 100 0] ++ d_calls d.
Proof.
  pose (d := one_process failed_exec). exists d.
  destruct (run_ex failed_exec [IStop (execve_stop 0); IStop (execve_stop (2 ^ 64 - 2))] (cleared, d)) as [[[s' d'] rs]|] eqn:E; [|vm_compute in E; discriminate].
  destruct rs as [|[c1|] [|[c2|] [|? ?]]]; try (vm_compute in E; discriminate).
  exists s', d', c1, c2. split; [apply run_reachable|]. split; [vm_compute; reflexivity|]. split; [reflexivity|].
  vm_compute in E. injection E as <- <- <- <-. vm_compute. auto.
Qed.
(** a socketcall whose number is unknown: enter() raises KeyError and the next stop is taken for an enter again *)
Definition socketcall_regs : registers := regs_of (combine (T "orig_eax" :: abi_arguments I386) [102; 18; 4096; 0; 0; 0; 0]).
Lemma socketcall_raises d : exists s', ss_event linux_i386 no_names repr_ascii ENOENT_only strerror_ex (scripted []) true None default_options 5 0%nat
    (Stop (Ok socketcall_regs) nowhere (Ok 0) (Ok 0)) (cleared, d) = ((s', d), Raise (XErr EKeyError)) /\ ss_exit s' = false /\
  has_number linux_i386 102 (T "socketcall") /\ In (18, T "accept4") net_h.
Proof.
  eexists. split; [vm_compute; reflexivity|]. split; [reflexivity|]. split.
  - destruct (SYSCALL_NAMES linux_i386) as [names|e] eqn:E; [|discriminate E]. apply (has_number_dget linux_i386 102 _ names E).
    apply (f_equal (fun r => match r with Ok t => dget Z.eqb 102 t | Err _ => None end)) in E. rewrite <- E. vm_compute. reflexivity.
  - vm_compute. tauto.
Qed.
