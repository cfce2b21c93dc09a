(** * ItraceProofs: lemmas about examples/itrace.py. *)
From Coq Require Import ZArith List Ascii String Bool Lia.
From Verif Require Import PyBase PyFacts Platform DbgModel DbgSpec DbgProofs DbgProofs3 StraceModel ItraceModel ItraceSpec.
Import ListNotations.
Open Scope Z_scope.

Lemma step_line_text i pid eip : step_text i pid eip (step_line i pid eip).
Proof. exists (fmt_int0 16 8 eip). split; [reflexivity|]. intros H. unfold fmt_int0. assert (eip <? 0 = false) as -> by lia. reflexivity. Qed.
Lemma land_not128 n : Z.land n (Z.lnot 128) = 5 <-> n = 5 \/ n = 5 + 128.
Proof.
  split; [|intros [->| ->]; reflexivity]. intros H.
  assert (E : n = Z.lor (Z.land n (Z.lnot 128)) (Z.land n 128)).
  { rewrite <- Z.land_lor_distr_r. change (Z.lor (Z.lnot 128) 128) with (-1). now rewrite Z.land_m1_r. }
  rewrite H in E. assert (Z.land n 128 = 0 \/ Z.land n 128 = 128) as [F|F].
  { change 128 with (2 ^ 7). destruct (Z.testbit n 7) eqn:B; [right|left]; apply Z.bits_inj'; intros k Hk; rewrite Z.land_spec, ?Z.bits_0, !Z.pow2_bits_eqb by lia;
      destruct (Z.eqb_spec 7 k) as [<-|]; rewrite ?B, ?andb_true_r, ?andb_false_r; reflexivity. }
  - rewrite F in E. left. exact E.
  - rewrite F in E. right. exact E.
Qed.
Lemma last_line_text ev l : last_line ev = Some l <-> last_text ev l.
Proof.
  destruct ev as [[| | |signum pr]|]; cbn [last_line last_text]; try (split; [discriminate|intros []]).
  - split; [now intros [= <-]|now intros ->].
  - change SIGTRAP with 5. destruct (Z.eqb_spec (Z.land signum (Z.lnot 128)) 5) as [E|E].
    + apply land_not128 in E. split; [discriminate|]. intros (A & B & _). destruct E; contradiction.
    + split; [intros [= <-]|intros (_ & _ & ->); reflexivity]. split; [|split; [|reflexivity]]; intros ->; apply E; reflexivity.
Qed.
Section I.
  Context (p : platform) (K : dkernel) (ip : nat -> nat -> res Z) (Hl : running_linux p = true).
  (** Nothing was resumed *)
  Definition still (d d' : dstate) : Prop := exists new, made d d' new /\ filter resumes new = [].
  Lemma ticks_still d d' : ticks (ordinary false) d d' -> still d d'.
  Proof.
    intros H. destruct (ticks_calls _ _ _ H) as (new & M & Ha). exists new. split; [exact M|]. clear M. induction new as [|c new IH]; [reflexivity|].
    cbn [filter]. assert (resumes c = false) as ->.
    { destruct (Ha c (or_introl eq_refl)) as [(s & Hs)|(i & pid & ->)]; [|reflexivity]. destruct c; cbn in Hs |- *; try reflexivity; intuition discriminate. }
    apply IH. intros c' Hc. apply Ha. now right.
  Qed.
  Lemma ticks_pid d d' id pid : ticks (ordinary false) d d' -> has_pid d id pid -> has_pid d' id pid.
  Proof. intros H (q & Hq & Hp). destruct (ticks_keep _ _ _ _ _ H Hq) as (q' & Hq' & Hi & _). exists q'. split; [exact Hq'|congruence]. Qed.
  Lemma linux_bsd : running_bsd p = true -> false = true.
  Proof. unfold running_bsd. rewrite Hl. discriminate. Qed.
  Lemma wait_ticks fuel d : ticks (ordinary false) d (fst (waitProcessEvent K p fuel None true d)).
  Proof. exact (within_wait K p false linux_bsd fuel (wait_event_query None true) ltac:(discriminate) d). Qed.
  Lemma signals_ticks fuel d : ticks (ordinary false) d (fst (waitSyscall K p fuel None d)).
  Proof.
    unfold waitSyscall. change (ticks (ordinary false) d (fst (waitSignals K p fuel [if d_sysgood d then Z.lor SIGTRAP 0x80 else SIGTRAP] None d))).
    generalize [if d_sysgood d then Z.lor SIGTRAP 0x80 else SIGTRAP]. intros l. revert d. change (within (ordinary false) (waitSignals K p fuel l None)).
    unfold waitSignals, waitSignals_. apply within_bind; [apply (within_wait K p false linux_bsd); discriminate|]. win.
  Qed.
  Lemma made_trans' a b c x y : made a b x -> made b c y -> made a c (x ++ y).
  Proof. apply made_trans. Qed.
  Lemma pass_calls n fuel id pid : forall i st st' r, has_pid (t_dbg st) id pid -> pass_syscalls p K n fuel i id st = (st', r) ->
    has_pid (t_dbg st') id pid /\ exists new k, made (t_dbg st) (t_dbg st') new /\ filter resumes new = repeat (KSyscall id pid 0) k /\ t_log st' = rev (counted k i) ++ t_log st /\
      (r = Ret tt -> k = n) /\ (k <= n)%nat.
  Proof.
    induction n as [|n IH]; intros i st st' r Hp E.
    - injection E as <- <-. split; [exact Hp|]. exists [], O. repeat split; auto.
    - cbn [pass_syscalls] in E. unfold tbind at 1, tlog at 1 in E. set (st1 := TState _ _ _ _ _) in E. destruct Hp as (q & Hq & Hpid).
      unfold tbind at 1, tdbg at 1, syscall, dbind at 1, get_proc at 1 in E. change (t_dbg st1) with (t_dbg st) in E. rewrite Hq in E.
      assert (running_openbsd p = false) as Ho by (revert Hl; unfold running_linux, running_openbsd; destruct (p_os p); congruence). rewrite Ho in E. rewrite Hpid in E. change (filterSignal 0) with 0 in E.
      unfold dbind at 1, request at 1 in E. set (d1 := add_call (t_dbg st) (KSyscall id pid 0)) in E.
      assert (has_pid d1 id pid) as Hp1 by (exists q; split; [exact Hq|exact Hpid]).
      assert (made (t_dbg st) d1 [KSyscall id pid 0]) as M1 by reflexivity.
      destruct (k_do K _ _) as [[]|e].
      2: { injection E as <- <-. split; [exact Hp1|]. exists [KSyscall id pid 0], 1%nat. split; [exact M1|]. repeat split; try reflexivity; [discriminate|lia]. }
      unfold upd_proc in E. fold (upd d1 id (set_stopped false)) in E. set (d2 := upd d1 id (set_stopped false)) in E.
      assert (ticks (ordinary false) d1 d2) as T2 by (apply ticks_one; constructor).
      unfold tbind at 1, tdbg at 1 in E. change (t_dbg (set_dbg st1 d2)) with d2 in E. pose proof (signals_ticks fuel d2) as T3. destruct (waitSyscall K p fuel None d2) as [d3 o]. cbn [fst] in T3.
      pose proof (ticks_trans _ _ _ _ T2 T3) as T4. destruct (ticks_still _ _ T4) as (new & M & F). pose proof (ticks_pid _ _ _ _ T4 Hp1) as Hp3.
      pose proof (made_trans _ _ _ _ _ M1 M) as M4.
      destruct o as [ev|x].
      + apply IH in E as (Hp' & new' & k & M' & F' & L' & R' & Hk); [|exact Hp3]. split; [exact Hp'|]. exists (([KSyscall id pid 0] ++ new) ++ new'), (S k).
        split; [exact (made_trans _ _ _ _ _ M4 M')|]. split; [rewrite !filter_app, F, F'; reflexivity|]. split; [cbn [counted rev]; rewrite L'; cbn [t_log set_dbg st1]; rewrite <- app_assoc; reflexivity|].
        split; [intros Hr; now rewrite R'|lia].
      + injection E as <- <-. split; [exact Hp3|]. exists ([KSyscall id pid 0] ++ new), 1%nat. split; [exact M4|]. split; [rewrite filter_app, F; reflexivity|]. repeat split; try reflexivity; [discriminate|lia].
  Qed.
  Lemma lines_more id pid times lines : forall i n eip, step_lines ip id pid (i + 1) times lines -> ip n id = Ok eip -> step_lines ip id pid i (n :: times) (LLine (step_line i pid eip) :: lines).
  Proof. intros i n eip H E. split; [|exact H]. exists eip, (step_line i pid eip). split; [exact E|]. split; [reflexivity|apply step_line_text]. Qed.
  Lemma made_nth d d1 d2 c rest new : made d d1 (c :: rest) -> made d1 d2 new -> nth_error (rev (d_calls d2)) (List.length (d_calls d)) = Some c.
  Proof.
    unfold made. intros -> ->. rewrite !rev_app_distr, !rev_involutive. rewrite <- app_assoc. rewrite nth_error_app2 by (rewrite rev_length; lia). rewrite rev_length, Nat.sub_diag. reflexivity.
  Qed.
  Lemma steps_calls rounds fuel id pid : forall i st st' r, has_pid (t_dbg st) id pid -> step_loop p K ip rounds fuel i id st = (st', r) ->
    exists new times lines end_, made (t_dbg st) (t_dbg st') new /\ filter resumes new = repeat (KStep id pid) (List.length times) /\
      t_log st' = end_ ++ rev lines ++ t_log st /\ step_lines ip id pid i times lines /\
      Forall (fun n => nth_error (rev (d_calls (t_dbg st'))) n = Some (KStep id pid)) times /\
      (r = Ret tt /\ (exists ev l, last_text ev l /\ end_ = [LLine l]) \/ end_ = [] /\ (r = Ret tt -> d_list (t_dbg st') = [])).
  Proof.
    induction rounds as [|rounds IH]; intros i st st' r Hp E.
    - injection E as <- <-. exists [], [], [], []. split; [reflexivity|]. split; [reflexivity|]. split; [reflexivity|]. split; [exact I|]. split; [constructor|]. right. split; [reflexivity|discriminate].
    - cbn [step_loop] in E. unfold tbind at 1, tget at 1 in E. destruct (d_list (t_dbg st)) as [|p0 ps] eqn:El.
      { injection E as <- <-. exists [], [], [], []. split; [reflexivity|]. split; [reflexivity|]. split; [reflexivity|]. split; [exact I|]. split; [constructor|]. right. split; [reflexivity|]. intros _. exact El. }
      unfold tbind at 1, tres at 1 in E. destruct (ip (List.length (d_calls (t_dbg st))) id) as [eip|e] eqn:Ei.
      2: { injection E as <- <-. exists [], [], [], []. split; [reflexivity|]. split; [reflexivity|]. split; [reflexivity|]. split; [exact I|]. split; [constructor|]. right. split; [reflexivity|discriminate]. }
      assert (pid_of st id = pid) as Epid by (unfold pid_of; destruct Hp as (q & -> & Hq); exact Hq). rewrite Epid in E.
      unfold tbind at 1, tlog at 1 in E. set (st1 := TState _ _ _ _ _) in E. destruct Hp as (q & Hq & Hpid).
      unfold tbind at 1, tdbg at 1, singleStep, dbind at 1, get_proc at 1, request at 1 in E. change (t_dbg st1) with (t_dbg st) in E. rewrite Hq, Hpid in E.
      set (d1 := add_call (t_dbg st) (KStep id pid)) in E. assert (has_pid d1 id pid) as Hp1 by (exists q; split; [exact Hq|exact Hpid]).
      assert (made (t_dbg st) d1 [KStep id pid]) as M1 by reflexivity.
      destruct (k_do K _ _) as [[]|e].
      2: { injection E as <- <-. exists [KStep id pid], [List.length (d_calls (t_dbg st))], [LLine (step_line i pid eip)], []. split; [exact M1|]. split; [reflexivity|]. split; [reflexivity|]. split; [apply lines_more; [exact I|exact Ei]|].
           split; [|right; split; [reflexivity|discriminate]]. constructor; [|constructor]. exact (made_nth _ _ d1 _ _ [] M1 eq_refl). }
      unfold tbind at 1, tdbg at 1 in E. change (t_dbg (set_dbg st1 d1)) with d1 in E. pose proof (wait_ticks fuel d1) as T3. destruct (waitProcessEvent K p fuel None true d1) as [d3 o]. cbn [fst] in T3.
      destruct (ticks_still _ _ T3) as (new & M & F). pose proof (ticks_pid _ _ _ _ T3 Hp1) as Hp3. pose proof (made_trans _ _ _ _ _ M1 M) as M4.
      destruct o as [ev|x].
      2: { injection E as <- <-. exists ([KStep id pid] ++ new), [List.length (d_calls (t_dbg st))], [LLine (step_line i pid eip)], []. split; [exact M4|]. split; [rewrite filter_app, F; reflexivity|]. split; [reflexivity|]. split; [apply lines_more; [exact I|exact Ei]|].
           split; [|right; split; [reflexivity|discriminate]]. constructor; [|constructor]. exact (made_nth _ _ d3 _ _ new M1 M). }
      destruct (last_line ev) as [l|] eqn:Ell.
      + injection E as <- <-. exists ([KStep id pid] ++ new), [List.length (d_calls (t_dbg st))], [LLine (step_line i pid eip)], [LLine l]. split; [exact M4|]. split; [rewrite filter_app, F; reflexivity|]. split; [reflexivity|]. split; [apply lines_more; [exact I|exact Ei]|].
        split; [|left; split; [reflexivity|exists ev, l; split; [apply last_line_text; exact Ell|reflexivity]]]. constructor; [|constructor]. exact (made_nth _ _ d3 _ _ new M1 M).
      + apply IH in E as (new' & times & lines & end_ & M' & F' & L' & S' & T' & R'); [|exact Hp3].
        exists (([KStep id pid] ++ new) ++ new'), (List.length (d_calls (t_dbg st)) :: times), (LLine (step_line i pid eip) :: lines), end_.
        split; [exact (made_trans _ _ _ _ _ M4 M')|]. split; [rewrite !filter_app, F, F'; reflexivity|]. split; [rewrite L'; cbn [rev t_log set_dbg st1]; rewrite <- app_assoc; reflexivity|].
        split; [apply lines_more; assumption|]. split; [|exact R']. constructor; [|exact T']. exact (made_nth _ _ _ _ _ _ M1 (made_trans _ _ _ _ _ M M')).
  Qed.
End I.
(** Without -n nothing is traced *)
Lemma default_fails p K ip rounds fuel id st : itrace p K ip None rounds fuel id st = (st, Raise (XErr ETypeError)).
Proof. reflexivity. Qed.
(** A process that makes four stops and ends *)
Definition ex_kernel : dkernel :=
  DKernel (fun n _ _ => Ok (7, if (n <? 8)%nat then 1407 else 0)) (fun _ _ => Err EUndefined) (fun _ _ => Ok tt).
Definition ex_state : tstate :=
  TState (DState [Proc 7 true false false true true false None] [(7, O)] [O] 0 false false false false []) [] [] [] [].
Definition ex_ip (n id : nat) : res Z := Ok (0x400000 + Z.of_nat n).
Lemma pass_exact p K n fuel id pid st st' r : running_linux p = true -> has_pid (t_dbg st) id pid -> pass p K (Some (Z.of_nat n)) fuel id st = (st', r) ->
  exists new k, made (t_dbg st) (t_dbg st') new /\ filter resumes new = repeat (KSyscall id pid 0) k /\ t_log st' = rev (counted k 0) ++ t_log st /\ (r = Ret tt -> k = n) /\ (k <= n)%nat.
Proof. intros Hl Hp E. unfold pass in E. rewrite Nat2Z.id in E. exact (proj2 (pass_calls p K (fun _ _ => Err EUndefined) Hl n fuel id pid 0 st st' r Hp E)). Qed.
(** A whole run *)
Lemma itrace_whole p K ip n rounds fuel id pid st st' r : running_linux p = true -> has_pid (t_dbg st) id pid -> itrace p K ip (Some (Z.of_nat n)) rounds fuel id st = (st', r) ->
  exists new k times lines end_, made (t_dbg st) (t_dbg st') new /\ filter resumes new = repeat (KSyscall id pid 0) k ++ repeat (KStep id pid) (List.length times) /\
    t_log st' = end_ ++ rev lines ++ rev (counted k 0) ++ t_log st /\ step_lines ip id pid 0 times lines /\
    (r = Ret tt -> k = n /\ ((exists ev l, last_text ev l /\ end_ = [LLine l]) \/ end_ = [] /\ d_list (t_dbg st') = [])).
Proof.
  intros Hl Hp E. unfold itrace, tbind in E. destruct (pass p K (Some (Z.of_nat n)) fuel id st) as [st1 r1] eqn:E1.
  unfold pass in E1. rewrite Nat2Z.id in E1. destruct (pass_calls p K ip Hl n fuel id pid 0 st st1 r1 Hp E1) as (Hp1 & new & k & M & F & L & R & Hk).
  destruct r1 as [[]|x].
  - destruct (steps_calls p K ip Hl rounds fuel id pid 0 st1 st' r Hp1 E) as (new' & times & lines & end_ & M' & F' & L' & S' & _ & R').
    exists (new ++ new'), k, times, lines, end_. split; [exact (made_trans _ _ _ _ _ M M')|]. split; [rewrite filter_app, F, F'; reflexivity|].
    split; [rewrite L', L; reflexivity|]. split; [exact S'|]. intros Hr. split; [now apply R|]. destruct R' as [[_ R']|[R1 R2]]; [left; exact R'|right; split; [exact R1|now apply R2]].
  - injection E as <- <-. exists new, k, [], [], []. split; [exact M|]. split; [rewrite F; symmetry; apply app_nil_r|]. split; [exact L|]. split; [exact I|]. discriminate.
Qed.
Lemma default_wrong : exists p K ip rounds fuel id st, running_linux p = true /\ d_list (t_dbg st) <> [] /\ itrace p K ip None rounds fuel id st = (st, Raise (XErr ETypeError)).
Proof. exists linux_x86_64, ex_kernel, ex_ip, 10%nat, 20%nat, O, ex_state. split; [reflexivity|]. split; [discriminate|]. reflexivity. Qed.
