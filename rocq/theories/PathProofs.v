(** * PathProofs: one process under examples/itrace.py, from its start to its end (C126). *)
From Coq Require Import ZArith List Ascii String Bool Lia.
From Verif Require Import PyBase PyFacts Platform SigModel ToolsModel DbgModel DbgSpec DbgProofs DbgProofs2 DbgProofs3 DbgProofs4
  SysModel SysSpec StraceModel StraceSpec StraceProofs StraceProofs2 StraceProofs5 StorySpec StoryProofs StoryProofs2 ItraceModel ItraceSpec ItraceProofs PathSpec.
Import ListNotations.
Open Scope Z_scope.

Section One.
  Context (K : dkernel) (p : platform) (ip : nat -> nat -> res Z) (pid : Z) (started : bool) (Hl : running_linux p = true) (Hpid : pid <> 0).
  (** The only process of the debugger, in full *)
  Definition one (d : dstate) (b : bool) (cs : list kcall) : Prop :=
    d_procs d = [Proc pid true false started true b false None] /\ d_dict d = [(pid, 0%nat)] /\ d_list d = [0%nat] /\ d_sysgood d = true /\ d_calls d = cs.
  Lemma one_alone d b cs : one d b cs -> alone pid 0%nat (d_trace_exec d) d (List.length cs) cs.
  Proof. intros (A & B & C & D & E). repeat split; auto. rewrite A. eexists. repeat split. Qed.
  Lemma one_call d b cs c : one d b cs -> one (add_call d c) b (c :: cs).
  Proof. intros (A & B & C & D & E). repeat split; cbn; auto. now rewrite E. Qed.
  Lemma one_stopped d b b' cs : one d b cs -> one (with_stopped d 0%nat b') b' cs.
  Proof. intros (A & B & C & D & E). repeat split; cbn; auto. rewrite A. reflexivity. Qed.

  Lemma one_step d b cs : one d b cs -> k_do K (List.length cs) (KStep 0 pid) = Ok tt ->
    singleStep K 0 d = (add_call d (KStep 0 pid), Ret tt).
  Proof. intros (A & B & C & D & E) H. unfold singleStep, dbind, get_proc. rewrite A. cbn. unfold request. rewrite E, H. reflexivity. Qed.
  Lemma one_event d b cs s f : one d b cs -> 0 <= s < 256 -> reports K pid (List.length cs) (Stopped s) ->
    waitProcessEvent K p (S (S f)) None true d = (with_stopped (add_call d (KWait pid 0)) 0 true, Ret (Some (ProcessSignal s 0%nat))).
  Proof.
    intros H Hs Hk. pose proof (one_alone _ _ _ H) as A. unfold waitProcessEvent, wait_event_query.
    rewrite (any_wait K p pid 0 _ d _ _ _ A). rewrite (wait_signal K p pid 0 _ Hpid d _ cs s f A Hs Hk). reflexivity.
  Qed.
  Lemma one_end d b cs m f : one d b cs -> deadly m -> reports K pid (List.length cs) m ->
    wait K p (S f) (QPid pid true) d =
      (gone (add_call d (KWait pid 0)) 0 (Proc pid true false started true b false None), Ret (Some (ProcessExit 0%nat (exit_signal m) (exit_code m)))).
  Proof.
    intros H Hm Hk. pose proof (one_alone _ _ _ H) as Ha. destruct H as (A & B & C & D & E).
    rewrite (one_wait K p pid 0 _ Hpid d _ cs m f Ha Hk). set (d1 := add_call d _).
    assert (nth_error (d_procs d1) 0 = Some (Proc pid true false started true b false None)) as Hq by (cbn; rewrite A; reflexivity).
    destruct m as [code|s core|s|ev]; [| |contradiction..].
    - destruct (encode_classes (Exited code) Hm) as (E1 & E2). rewrite (status_exit_eq K p f 0 _ _ _ Hl Hq E1). rewrite E2. reflexivity.
    - pose proof (encode_classes (Killed s core) Hm) as E1. cbn [deadly valid] in Hm. rewrite (status_killed_eq K p f 0 _ _ _ Hq) by (rewrite E1; lia). rewrite E1. reflexivity.
  Qed.
  Lemma gone_one d b cs q : one d b cs -> pr_is_attached q = true -> pr_pid q = pid ->
    d_list (gone d 0 q) = [] /\ d_calls (gone d 0 q) = cs /\ d_procs (gone d 0 q) = [Proc pid false false started false b false None].
  Proof.
    intros (A & B & C & D & E) Ha Hp. unfold gone. rewrite Ha. cbn. rewrite A, C, E. cbn. auto.
  Qed.

  Definition log_of (st : tstate) (lines : list tline) : Prop := t_log st = lines.
  Lemma pass_ok k : forall after st b cs f i, one (t_dbg st) b cs -> passes K pid 0 (List.length cs) k after ->
    exists st' b' cs', pass_syscalls p K k (S (S f)) i 0 st = (st', Ret tt) /\ one (t_dbg st') b' cs' /\ rev cs' = rev cs ++ pass_requests pid 0 k /\
      after (List.length cs') /\ t_log st' = rev (counted k i) ++ t_log st /\ t_sys st' = t_sys st.
  Proof.
    induction k as [|k IH]; intros after st b cs f i Ho Hk.
    - exists st, b, cs. cbn. rewrite app_nil_r. auto 8.
    - cbn [passes] in Hk. destruct Hk as (K1 & K2 & K3). cbn [pass_syscalls]. unfold tbind at 1, tlog at 1. unfold tbind at 1, tdbg at 1. cbn [t_dbg set_dbg].
      rewrite (resume K p pid 0 _ Hl (t_dbg st) _ cs 0 (one_alone _ _ _ Ho)) by exact K1. cbv beta iota.
      change (filterSignal 0) with 0. set (d1 := with_stopped _ 0%nat false).
      assert (one d1 false (KSyscall 0 pid 0 :: cs)) as O1 by (apply one_stopped with (b := b), one_call, Ho).
      unfold tbind at 1, tdbg at 1. cbn [t_dbg set_dbg]. rewrite (wait_call K p pid 0 _ Hpid d1 _ _ f (one_alone _ _ _ O1)) by exact K2. cbv beta iota.
      set (d2 := with_stopped _ 0%nat true).
      assert (one d2 true (KWait pid 0 :: KSyscall 0 pid 0 :: cs)) as O2 by (apply one_stopped with (b := false), one_call, O1).
      match goal with |- exists _ _ _, pass_syscalls _ _ _ _ _ _ ?s = _ /\ _ => destruct (IH after s true _ f (i + 1) O2 K3) as (st' & b' & cs' & I1 & I2 & I3 & I4 & I5 & I6) end.
      exists st', b', cs'. split; [exact I1|]. split; [exact I2|]. split; [rewrite I3; cbn; now rewrite <- !app_assoc|]. split; [exact I4|]. split; [|exact I6].
      rewrite I5. cbn. now rewrite <- app_assoc.
  Qed.
  Lemma pid_one st b cs : one (t_dbg st) b cs -> pid_of st 0 = pid.
  Proof. intros (A & _). unfold pid_of. rewrite A. reflexivity. Qed.
  Lemma hex_line i a : 0 <= a -> step_line i pid a = str_int i ++ T " " ++ str_int pid ++ T " [" ++ padl 8 "0"%char (digits 16 a) ++ T "]".
  Proof. intros H. unfold step_line, fmt_int0. assert (a <? 0 = false) as -> by lia. reflexivity. Qed.
  Lemma walk_ok path : forall after st b cs f i rounds, one (t_dbg st) b cs -> walks K ip pid 0 (List.length cs) path after ->
    exists st' b' cs', step_loop p K ip (List.length path + rounds) (S (S f)) i 0 st = step_loop p K ip rounds (S (S f)) (i + zlen path) 0 st' /\
      one (t_dbg st') b' cs' /\ rev cs' = rev cs ++ walk_requests pid 0 path /\
      after (List.length cs') /\ t_log st' = rev (walk_lines pid i path) ++ t_log st.
  Proof.
    induction path as [|a path IH]; intros after st b cs f i rounds Ho Hw.
    - exists st, b, cs. cbn. rewrite app_nil_r, Z.add_0_r. auto 8.
    - cbn [walks] in Hw. destruct Hw as (W1 & W2 & W3 & W4 & W5). cbn [List.length Nat.add step_loop].
      unfold tbind at 1, tget at 1. pose proof Ho as (A & B & C & D & E). rewrite C, E. unfold tbind at 1, tres at 1. rewrite W1.
      unfold tbind at 1, tlog at 1. unfold tbind at 1, tdbg at 1. cbn [t_dbg set_dbg]. rewrite (one_step (t_dbg st) b cs Ho W3). cbv beta iota.
      set (d1 := add_call (t_dbg st) _). assert (one d1 b (KStep 0 pid :: cs)) as O1 by (apply one_call, Ho).
      unfold tbind at 1, tdbg at 1. cbn [t_dbg set_dbg]. rewrite (one_event d1 b _ 5 f O1) by (auto; lia). cbv beta iota.
      set (d2 := with_stopped _ 0%nat true).
      assert (one d2 true (KWait pid 0 :: KStep 0 pid :: cs)) as O2 by (apply one_stopped with (b := b), one_call, O1).
      change (last_line (Some (ProcessSignal 5 0%nat))) with (@None text). cbv beta iota.
      match goal with |- exists _ _ _, step_loop _ _ _ _ _ _ _ ?s = _ /\ _ => destruct (IH after s true _ f (i + 1) rounds O2 W5) as (st' & b' & cs' & I1 & I2 & I3 & I4 & I5) end.
      exists st', b', cs'. split; [rewrite I1; f_equal; unfold zlen; cbn [List.length]; lia|]. split; [exact I2|].
      split; [rewrite I3; cbn; now rewrite <- !app_assoc|]. split; [exact I4|].
      rewrite I5. cbn [t_log walk_lines rev]. rewrite <- app_assoc. cbn [app]. rewrite (pid_one st b cs Ho), hex_line by exact W2. reflexivity.
  Qed.

  (** The last instruction: the process ends, *)
  Lemma end_ok st b cs f i rounds a m : one (t_dbg st) b cs -> last_step K ip pid 0 a m (List.length cs) -> deadly m ->
    exists st', step_loop p K ip (S rounds) (S (S f)) i 0 st = (st', Ret tt) /\ d_list (t_dbg st') = [] /\ d_calls (t_dbg st') = KWait pid 0 :: KStep 0 pid :: cs /\
      t_log st' = LLine (T "process exit") :: rev (walk_lines pid i [a]) ++ t_log st.
  Proof.
    intros Ho (W1 & W2 & W3 & W4) Hm. cbn [step_loop].
    unfold tbind at 1, tget at 1. pose proof Ho as (A & B & C & D & E). rewrite C, E. unfold tbind at 1, tres at 1. rewrite W1.
    unfold tbind at 1, tlog at 1. unfold tbind at 1, tdbg at 1. cbn [t_dbg set_dbg]. rewrite (one_step (t_dbg st) b cs Ho W3). cbv beta iota.
    set (d1 := add_call (t_dbg st) _). assert (one d1 b (KStep 0 pid :: cs)) as O1 by (apply one_call, Ho).
    unfold tbind at 1, tdbg at 1. cbn [t_dbg set_dbg]. unfold waitProcessEvent, wait_event_query. rewrite (any_wait K p pid 0 _ d1 _ _ _ (one_alone _ _ _ O1)).
    rewrite (one_end d1 b _ m f O1 Hm W4). cbv beta iota. cbn [last_line]. unfold tlog. eexists. split; [reflexivity|]. cbn [t_dbg set_dbg t_log].
    destruct (gone_one (add_call d1 (KWait pid 0)) b (KWait pid 0 :: KStep 0 pid :: cs) (Proc pid true false started true b false None)) as (G1 & G2 & _); [apply one_call, O1|reflexivity..|].
    split; [exact G1|]. split; [exact G2|]. cbn. rewrite (pid_one st b cs Ho), hex_line by exact W2. reflexivity.
  Qed.
  (** or gets a signal *)
  Lemma signal_ok st b cs f i rounds a s : one (t_dbg st) b cs -> last_step K ip pid 0 a (Stopped s) (List.length cs) -> 1 <= s < 128 -> s <> 5 ->
    exists st', step_loop p K ip (S rounds) (S (S f)) i 0 st = (st', Ret tt) /\ one (t_dbg st') true (KWait pid 0 :: KStep 0 pid :: cs) /\
      t_log st' = LLine (T "died with signal " ++ str_int s) :: rev (walk_lines pid i [a]) ++ t_log st.
  Proof.
    intros Ho (W1 & W2 & W3 & W4) Hs H5. cbn [step_loop].
    unfold tbind at 1, tget at 1. pose proof Ho as (A & B & C & D & E). rewrite C, E. unfold tbind at 1, tres at 1. rewrite W1.
    unfold tbind at 1, tlog at 1. unfold tbind at 1, tdbg at 1. cbn [t_dbg set_dbg]. rewrite (one_step (t_dbg st) b cs Ho W3). cbv beta iota.
    set (d1 := add_call (t_dbg st) _). assert (one d1 b (KStep 0 pid :: cs)) as O1 by (apply one_call, Ho).
    unfold tbind at 1, tdbg at 1. cbn [t_dbg set_dbg]. rewrite (one_event d1 b _ s f O1) by (auto; lia). cbv beta iota.
    replace (last_line (Some (ProcessSignal s 0%nat))) with (Some (T "died with signal " ++ str_int s)).
    2:{ symmetry. apply last_line_text. cbn. split; [exact H5|]. split; [lia|reflexivity]. }
    unfold tlog. eexists. split; [reflexivity|]. cbn [t_dbg set_dbg t_log]. split; [apply one_stopped with (b := b), one_call, O1|].
    cbn. rewrite (pid_one st b cs Ho), hex_line by exact W2. reflexivity.
  Qed.
  (** The end during the system calls *)
  Lemma pass_end k : forall st b cs f i m more, one (t_dbg st) b cs -> passes K pid 0 (List.length cs) k (last_call K pid 0 m) ->
    exists st', pass_syscalls p K (k + S more) (S (S f)) i 0 st = (st', Raise (XEvent (ProcessExit 0%nat (exit_signal m) (exit_code m)))) /\
      d_list (t_dbg st') = [] /\ rev (d_calls (t_dbg st')) = rev cs ++ pass_requests pid 0 (S k) /\ pid_of st' 0 = pid /\
      t_log st' = rev (counted (S k) i) ++ t_log st /\ t_sys st' = t_sys st.
  Proof.
    induction k as [|k IH]; intros st b cs f i m more Ho Hk.
    - cbn [passes] in Hk. destruct Hk as (K1 & Hm & K2). cbn [Nat.add pass_syscalls]. unfold tbind at 1, tlog at 1. unfold tbind at 1, tdbg at 1. cbn [t_dbg set_dbg].
      rewrite (resume K p pid 0 _ Hl (t_dbg st) _ cs 0 (one_alone _ _ _ Ho)) by exact K1. cbv beta iota.
      change (filterSignal 0) with 0. set (d1 := with_stopped _ 0%nat false).
      assert (one d1 false (KSyscall 0 pid 0 :: cs)) as O1 by (apply one_stopped with (b := b), one_call, Ho).
      unfold tbind at 1, tdbg at 1. cbn [t_dbg set_dbg].
      destruct (wait_end K p pid 0 _ Hl Hpid d1 _ _ m f (one_alone _ _ _ O1) Hm K2) as (d' & -> & L & C & _ & (q & Q1 & Q2)). cbv beta iota.
      eexists. split; [reflexivity|]. cbn [t_dbg set_dbg t_log t_sys]. split; [exact L|]. split; [rewrite C; cbn; now rewrite <- app_assoc|].
      split; [unfold pid_of; cbn [t_dbg set_dbg]; now rewrite Q1|]. split; reflexivity.
    - cbn [passes] in Hk. destruct Hk as (K1 & K2 & K3). cbn [Nat.add pass_syscalls]. unfold tbind at 1, tlog at 1. unfold tbind at 1, tdbg at 1. cbn [t_dbg set_dbg].
      rewrite (resume K p pid 0 _ Hl (t_dbg st) _ cs 0 (one_alone _ _ _ Ho)) by exact K1. cbv beta iota.
      change (filterSignal 0) with 0. set (d1 := with_stopped _ 0%nat false).
      assert (one d1 false (KSyscall 0 pid 0 :: cs)) as O1 by (apply one_stopped with (b := b), one_call, Ho).
      unfold tbind at 1, tdbg at 1. cbn [t_dbg set_dbg]. rewrite (wait_call K p pid 0 _ Hpid d1 _ _ f (one_alone _ _ _ O1)) by exact K2. cbv beta iota.
      set (d2 := with_stopped _ 0%nat true).
      assert (one d2 true (KWait pid 0 :: KSyscall 0 pid 0 :: cs)) as O2 by (apply one_stopped with (b := false), one_call, O1).
      match goal with |- exists _, pass_syscalls _ _ _ _ _ _ ?s = _ /\ _ => destruct (IH s true _ f (i + 1) m more O2 K3) as (st' & I1 & I2 & I3 & I4 & I5 & I6) end.
      exists st'. split; [exact I1|]. split; [exact I2|]. split; [rewrite I3; cbn; now rewrite <- !app_assoc|]. split; [exact I4|]. split; [|exact I6].
      rewrite I5. cbn. now rewrite <- !app_assoc.
  Qed.

  (** quit(): the program that was started is killed, the one that was attached is let go. *)
  Lemma quit_started d cs f core : started = true -> one d true cs -> k_do K (List.length cs) (KCont 0 pid 9) = Ok tt ->
    reports K pid (S (List.length cs)) (Killed 9 core) ->
    exists d', quit K p (S (S f)) d = (d', Ret tt) /\ d_list d' = [] /\ d_calls d' = KWait pid 0 :: KCont 0 pid 9 :: cs.
  Proof.
    intros Hs Ho H1 H2. pose proof Ho as (A & B & C & D & E). unfold quit, dbind at 1, dget_state. rewrite C. cbn [rev app quit_loop].
    unfold dbind at 1, terminate, dbind at 1, get_proc. rewrite A. cbn [nth_error pr_running pr_was_attached]. rewrite Hs. cbn [negb orb pr_is_stopped].
    unfold dbind at 1, cont, dbind at 1, get_proc. rewrite A. cbn [nth_error pr_pid]. unfold dbind at 1, request. rewrite E. change (filterSignal SIGKILL) with 9. rewrite H1.
    unfold upd_proc. set (d1 := set_procs _ _). assert (one d1 false (KCont 0 pid 9 :: cs)) as O1.
    { apply one_stopped with (d := add_call d (KCont 0 pid 9)) (b := true), one_call, Ho. }
    cbv beta iota. unfold dbind at 1, waitExit, dbind at 1. change (wait K p (S (S f)) (QExit 0)) with (waitExit_ K (wait K p (S f)) 0). unfold waitExit_, dbind at 1, get_proc. pose proof O1 as (A1 & _). rewrite A1. cbn [nth_error pr_pid].
    unfold dbind at 1. assert (deadly (Killed 9 core)) as Hd by (cbn; lia).
    rewrite (one_end d1 false _ (Killed 9 core) f O1 Hd H2). cbv beta iota.
    destruct (gone_one (add_call d1 (KWait pid 0)) false (KWait pid 0 :: KCont 0 pid 9 :: cs) (Proc pid true false started true false false None)) as (G1 & G2 & G3); [apply one_call, O1|reflexivity..|].
    set (d2 := gone _ _ _) in *. clearbody d2. unfold dret at 1, dret at 1. cbv beta iota. unfold dbind at 1.
    assert (nth_error (d_procs d2) 0 = Some (Proc pid false false started false false false None)) as Hq by (rewrite G3; reflexivity).
    rewrite (notRunning_eq K d2 0 _ Hq). unfold dret at 1. cbv beta iota. unfold gone. cbn [pr_is_attached].
    set (d3 := upd d2 0 (set_running false)). assert (nth_error (d_procs d3) 0 = Some (Proc pid false false started false false false None)) as Hq3 by (unfold d3, upd; cbn [set_procs d_procs]; rewrite G3; reflexivity).
    unfold dbind, detach, dbind, get_proc. rewrite Hq3. cbn. exists d3. split; [reflexivity|]. split; [exact G1|exact G2].
  Qed.
  Lemma quit_attached d cs b f : started = false -> one d b cs -> k_do K (List.length cs) (KDetach 0 pid) = Ok tt ->
    exists d', quit K p f d = (d', Ret tt) /\ d_list d' = [] /\ d_calls d' = KDetach 0 pid :: cs.
  Proof.
    intros Hs Ho H1. pose proof Ho as (A & B & C & D & E). unfold quit, dbind at 1, dget_state. rewrite C. cbn [rev app quit_loop].
    unfold dbind at 1, terminate, dbind at 1, get_proc. rewrite A. cbn [nth_error pr_running pr_was_attached]. rewrite Hs. cbn [negb orb].
    unfold dret at 1. cbv beta iota. unfold dbind at 1, detach, dbind at 1, get_proc. rewrite A. cbn [nth_error pr_is_attached negb].
    unfold dbind at 1, upd_proc. cbn [pr_running pr_pid]. unfold dbind at 1, request. cbv beta iota.
    set (d1 := set_procs _ _). change (d_calls d1) with (d_calls d). rewrite E, H1. unfold d1.
    unfold deleteProcess, dbind, get_proc. cbn [add_call set_procs d_procs]. rewrite A. cbn. eexists. split; [reflexivity|]. cbn. rewrite C, E. split; reflexivity.
  Qed.
End One.
