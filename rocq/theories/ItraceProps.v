(** * ItraceProps: C99, the instruction tracer of the examples. *)
From Coq Require Import ZArith List Ascii String Bool.
From Verif Require Import PyBase Platform DbgModel DbgSpec StraceModel ItraceModel ItraceSpec ItraceProofs.
Import ListNotations.
Open Scope Z_scope.

(** With -n N, the process is resumed exactly N times to the next system call stop (fewer when something is raised) *)
Theorem c99_limit_partial : forall p K n fuel id pid st st' r, running_linux p = true -> has_pid (t_dbg st) id pid -> pass p K (Some (Z.of_nat n)) fuel id st = (st', r) ->
  exists new k, made (t_dbg st) (t_dbg st') new /\ filter resumes new = repeat (KSyscall id pid 0) k /\ t_log st' = rev (counted k 0) ++ t_log st /\ (r = Ret tt -> k = n) /\ (k <= n)%nat.
Proof. exact pass_exact. Qed.
Print Assumptions c99_limit_partial.
(** Then it only makes single steps, and each of them is announced with the address read just before it; it ends with the
    process *)
Theorem c99_steps_partial : forall p K ip, running_linux p = true -> forall rounds fuel id pid i st st' r, has_pid (t_dbg st) id pid -> step_loop p K ip rounds fuel i id st = (st', r) ->
  exists new times lines end_, made (t_dbg st) (t_dbg st') new /\ filter resumes new = repeat (KStep id pid) (List.length times) /\
    t_log st' = end_ ++ rev lines ++ t_log st /\ step_lines ip id pid i times lines /\
    Forall (fun n => nth_error (rev (d_calls (t_dbg st'))) n = Some (KStep id pid)) times /\
    (r = Ret tt /\ (exists ev l, last_text ev l /\ end_ = [LLine l]) \/ end_ = [] /\ (r = Ret tt -> d_list (t_dbg st') = [])).
Proof. exact steps_calls. Qed.
Print Assumptions c99_steps_partial.
(** It ends at the first event that is not the stop after a step *)
Theorem c99_last : forall ev l, last_line ev = Some l <-> last_text ev l.
Proof. exact last_line_text. Qed.
Print Assumptions c99_last.
(** The whole run *)
Theorem c99_whole_partial : forall p K ip n rounds fuel id pid st st' r, running_linux p = true -> has_pid (t_dbg st) id pid -> itrace p K ip (Some (Z.of_nat n)) rounds fuel id st = (st', r) ->
  exists new k times lines end_, made (t_dbg st) (t_dbg st') new /\ filter resumes new = repeat (KSyscall id pid 0) k ++ repeat (KStep id pid) (List.length times) /\
    t_log st' = end_ ++ rev lines ++ rev (counted k 0) ++ t_log st /\ step_lines ip id pid 0 times lines /\
    (r = Ret tt -> k = n /\ ((exists ev l, last_text ev l /\ end_ = [LLine l]) \/ end_ = [] /\ d_list (t_dbg st') = [])).
Proof. exact itrace_whole. Qed.
Print Assumptions c99_whole_partial.
Example c99_steps_ex : running_linux linux_x86_64 = true /\ has_pid (t_dbg ex_state) 0 7 /\
  exists st, itrace linux_x86_64 ex_kernel ex_ip (Some 2) 10 20 0 ex_state = (st, Ret tt) /\
  rev (t_log st) = map (fun s => LLine (T s)) ["0"; "1"; "0 7 [00400004]"; "1 7 [00400006]"; "2 7 [00400008]"; "process exit"]%string /\
  filter resumes (rev (d_calls (t_dbg st))) = [KSyscall 0 7 0; KSyscall 0 7 0; KStep 0 7; KStep 0 7; KStep 0 7].
Proof.
  split; [reflexivity|]. split; [eexists; split; reflexivity|]. eexists. split; [vm_compute; reflexivity|]. split; vm_compute; reflexivity.
Qed.
(** Without -n the tracer fails before it traces anything *)
Theorem c99_default : forall p K ip rounds fuel id st, itrace p K ip None rounds fuel id st = (st, Raise (XErr ETypeError)).
Proof. exact default_fails. Qed.
Print Assumptions c99_default.
Theorem c99_default_refuted : exists p K ip rounds fuel id st, running_linux p = true /\ d_list (t_dbg st) <> [] /\ itrace p K ip None rounds fuel id st = (st, Raise (XErr ETypeError)).
Proof. exact default_wrong. Qed.
Print Assumptions c99_default_refuted.
