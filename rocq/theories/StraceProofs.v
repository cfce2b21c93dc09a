(** * StraceProofs: lemmas about strace.py, C49 and C51. *)
From Coq Require Import ZArith List Ascii String Bool Lia.
From Verif Require Import PyBase PyFacts Platform IntModel RegModel SigModel TabModel TabSpec TabProofs ToolsModel ArgModel DbgModel DbgSpec DbgProofs DbgProofs2 DbgProofs3 DbgProofs4 DbgProofs5 DbgFinal2
  SysModel SysSpec SysProofs SysProofs2 ProcModel StraceModel StraceSpec.
Import ListNotations.
Open Scope Z_scope.

Lemma tbind_ok {A B} (m : TM A) (f : A -> TM B) st st' b : tbind m f st = (st', Ret b) -> exists st1 a, m st = (st1, Ret a) /\ f a st1 = (st', Ret b).
Proof. unfold tbind. destruct (m st) as [s [a|x]]; [eauto|discriminate]. Qed.
Lemma tbind_raise {A B} (m : TM A) (f : A -> TM B) st st' x : tbind m f st = (st', Raise x) ->
  m st = (st', Raise x) \/ exists st1 a, m st = (st1, Ret a) /\ f a st1 = (st', Raise x).
Proof. unfold tbind. destruct (m st) as [s [a|y]]; [eauto|]. intros [= <- <-]. auto. Qed.

(** ** Frames: what a computation keeps *)
Section Keeps.
  Context (R : tstate -> tstate -> Prop) (Rrefl : forall s, R s s) (Rtrans : forall a b c, R a b -> R b c -> R a c).
  Definition tkeeps {A} (m : TM A) : Prop := forall st, R st (fst (m st)).
  Lemma tkeeps_ret {A} (a : A) : tkeeps (tret a). Proof. intros st. apply Rrefl. Qed.
  Lemma tkeeps_throw {A} x : tkeeps (@tthrow A x). Proof. intros st. apply Rrefl. Qed.
  Lemma tkeeps_get : tkeeps tget. Proof. intros st. apply Rrefl. Qed.
  Lemma tkeeps_res {A} (r : res A) : tkeeps (tres r). Proof. intros st. apply Rrefl. Qed.
  Lemma tkeeps_bind {A B} (m : TM A) (f : A -> TM B) : tkeeps m -> (forall a, tkeeps (f a)) -> tkeeps (tbind m f).
  Proof. intros Hm Hf st. unfold tbind. specialize (Hm st). destruct (m st) as [s [a|x]]; cbn [fst] in *; [|exact Hm]. eapply Rtrans; [exact Hm|apply Hf]. Qed.
  Lemma tkeeps_try {A} (m : TM A) h : tkeeps m -> (forall x, tkeeps (h x)) -> tkeeps (ttry m h).
  Proof. intros Hm Hf st. unfold ttry. specialize (Hm st). destruct (m st) as [s [a|x]]; cbn [fst] in *; [exact Hm|]. eapply Rtrans; [exact Hm|apply Hf]. Qed.
End Keeps.

Definition same_seen (a b : tstate) : Prop := t_seen b = t_seen a.
Lemma same_seen_refl s : same_seen s s. Proof. reflexivity. Qed.
Lemma same_seen_trans a b c : same_seen a b -> same_seen b c -> same_seen a c. Proof. unfold same_seen. congruence. Qed.

Section Facts.
  Context (p : platform) (ns : namespace) (repr_fs : list byte -> text) (errorcode : list (Z * text)) (strerror : Z -> text)
          (K : dkernel) (stops : nat -> nat -> stop) (o : soptions) (only : list text) (child : res Z).
  Notation round := (round p ns repr_fs errorcode strerror K stops o only).
  Notation trace_loop := (trace_loop p ns repr_fs errorcode strerror K stops o only).
  Notation syscallTrace := (syscallTrace p ns repr_fs errorcode strerror K stops o only).
  Notation handle_event := (handle_event p ns repr_fs errorcode strerror K stops o only).
  Notation handle_syscall := (handle_syscall p ns repr_fs errorcode strerror K stops o only).
  Notation handle_exit := (handle_exit p ns repr_fs stops o).
  Notation handle_new := (handle_new p K).
  Notation displaySyscall := (displaySyscall p ns repr_fs stops o).
  Notation state_event := (state_event p ns repr_fs errorcode strerror K stops o only).

  Ltac frame := repeat (first [ solve [auto] | apply tkeeps_bind; [assumption| |intros] | apply tkeeps_ret; assumption | apply tkeeps_throw; assumption | apply tkeeps_get; assumption
    | apply tkeeps_res; assumption | match goal with |- tkeeps _ (match ?b with _ => _ end) => destruct b end ]).

  (** *** The history *)
  Section Seen.
    Let Hr := same_seen_refl. Let Ht := same_seen_trans.
    Lemma seen_dbg {A} (m : D A) : tkeeps same_seen (tdbg m).
    Proof. intros st. unfold tdbg. destruct (m (t_dbg st)). reflexivity. Qed.
    Lemma seen_log l : tkeeps same_seen (tlog l). Proof. intros st. reflexivity. Qed.
    Lemma seen_ready id : tkeeps same_seen (set_ready id). Proof. intros st. reflexivity. Qed.
    Lemma seen_keep id c : tkeeps same_seen (keep_call id c).
    Proof. intros st. unfold keep_call. destruct (ss_syscall _); reflexivity. Qed.
    Lemma seen_state f id : tkeeps same_seen (state_event f id).
    Proof. intros st. unfold StraceModel.state_event. destruct (ss_event _ _ _ _ _ _ _ _ _ _ _ _ _) as [[s d] r]. reflexivity. Qed.
    Lemma seen_proc id s : tkeeps same_seen (proc_syscall p K id s). Proof. apply seen_dbg. Qed.
    Hint Resolve seen_dbg seen_log seen_ready seen_keep seen_state seen_proc : core.
    Lemma seen_display id c : tkeeps same_seen (displaySyscall id c).
    Proof. unfold StraceModel.displaySyscall. frame. Qed.
    Hint Resolve seen_display : core.
    Lemma seen_exit id s c : tkeeps same_seen (handle_exit id s c).
    Proof. unfold StraceModel.handle_exit. frame. Qed.
    Lemma seen_prepare id : tkeeps same_seen (prepareProcess p K id).
    Proof. unfold prepareProcess. frame. Qed.
    Hint Resolve seen_exit seen_prepare : core.
    Lemma seen_new id : tkeeps same_seen (handle_new id).
    Proof. unfold StraceModel.handle_new. frame. Qed.
    Lemma seen_syscall f id : tkeeps same_seen (handle_syscall f id).
    Proof. unfold StraceModel.handle_syscall. frame. Qed.
    Hint Resolve seen_new seen_syscall : core.
    Lemma seen_event f code raised ev : tkeeps same_seen (handle_event f code raised ev).
    Proof. unfold StraceModel.handle_event, handle_execution. frame. Qed.
  End Seen.

  (** *** C49 *)
  Lemma event_code f code raised ev st st' code' : handle_event f code raised ev st = (st', Ret code') ->
    code' = match raised, ev with
            | true, ProcessExit _ _ (Some c) => c
            | true, ProcessSignal s _ => 128 + s
            | _, _ => code
            end.
  Proof.
    unfold StraceModel.handle_event. destruct raised, ev; intros H; try discriminate H;
      repeat (apply tbind_ok in H as (? & ? & _ & H)); injection H as _ <-; reflexivity.
  Qed.
  Lemma round_split f code st st' code' : round f code st = (st', Ret code') -> exists raised ev st1,
    (if raised : bool then tdbg (waitSyscall K p f None) st = (st1, Raise (XEvent ev)) else tdbg (waitSyscall K p f None) st = (st1, Ret ev)) /\
    handle_event f code raised ev (TState (t_dbg st1) (t_sys st1) (t_ready st1) (t_log st1) ((raised, ev) :: t_seen st1)) = (st', Ret code').
  Proof.
    unfold StraceModel.round. intros H. apply tbind_ok in H as (st1 & [raised ev] & H1 & H). apply tbind_ok in H as (st2 & u & H2 & H). injection H2 as <- <-. cbn [fst snd] in H.
    destruct (tdbg (waitSyscall K p f None) st) as [s [ev'|[e|ev']]] eqn:E; try discriminate H1; injection H1 as <- <- <-; [exists false|exists true]; exists ev', s; auto.
  Qed.
  Lemma round_raise f code st st' x : round f code st = (st', Raise x) ->
    (exists e, x = XErr e /\ tdbg (waitSyscall K p f None) st = (st', Raise x)) \/
    exists raised ev st1,
    (if raised : bool then tdbg (waitSyscall K p f None) st = (st1, Raise (XEvent ev)) else tdbg (waitSyscall K p f None) st = (st1, Ret ev)) /\
    handle_event f code raised ev (TState (t_dbg st1) (t_sys st1) (t_ready st1) (t_log st1) ((raised, ev) :: t_seen st1)) = (st', Raise x).
  Proof.
    unfold StraceModel.round. intros H. apply tbind_raise in H as [H|(st1 & [raised ev] & H1 & H)].
    - left. destruct (tdbg (waitSyscall K p f None) st) as [s [ev'|[e|ev']]]; try discriminate H. injection H as <- <-. now exists e.
    - right. apply tbind_raise in H as [H|(st2 & u & H2 & H)]; [discriminate H|]. injection H2 as <- <-. cbn [fst snd] in H.
      destruct (tdbg (waitSyscall K p f None) st) as [s [ev'|[e|ev']]] eqn:E; try discriminate H1; injection H1 as <- <- <-; [exists false|exists true]; exists ev', s; auto.
  Qed.
  Lemma wait_seen f st st1 (r : out event) : tdbg (waitSyscall K p f None) st = (st1, r) ->
    t_seen st1 = t_seen st /\ t_sys st1 = t_sys st /\ t_ready st1 = t_ready st /\ t_log st1 = t_log st /\ waitSyscall K p f None (t_dbg st) = (t_dbg st1, r).
  Proof. unfold tdbg. destruct (waitSyscall K p f None (t_dbg st)) as [d r']. intros [= <- <-]. cbn. auto. Qed.
  Lemma round_seen f code st st' code' : round f code st = (st', Ret code') -> exists raised ev,
    t_seen st' = (raised, ev) :: t_seen st /\
    code' = match raised, ev with
            | true, ProcessExit _ _ (Some c) => c
            | true, ProcessSignal s _ => 128 + s
            | _, _ => code
            end.
  Proof.
    intros H. apply round_split in H as (raised & ev & st1 & Hw & H). exists raised, ev.
    assert (t_seen st1 = t_seen st) as Hs by (destruct raised; apply (wait_seen f st st1 _ Hw)).
    pose proof (seen_event f code raised ev (TState (t_dbg st1) (t_sys st1) (t_ready st1) (t_log st1) ((raised, ev) :: t_seen st1))) as Hk.
    rewrite H in Hk. unfold same_seen in Hk. cbn [fst t_seen] in Hk. rewrite Hk, Hs. split; [reflexivity|]. eapply event_code; eassumption.
  Qed.
  Lemma loop_code rounds f : forall code st st' code', trace_loop rounds f code st = (st', Ret code') ->
    code = last_code (t_seen st) -> code' = last_code (t_seen st').
  Proof.
    induction rounds as [|rounds IH]; intros code st st' code'; [discriminate|]. cbn [StraceModel.trace_loop]. intros H Hc.
    apply tbind_ok in H as (st0 & s & H0 & H). injection H0 as <- <-. destruct (d_list (t_dbg st)) as [|x l]; [injection H as <- <-; exact Hc|].
    apply tbind_ok in H as (st1 & code1 & H1 & H). apply round_seen in H1 as (raised & ev & Hs & Hcode). apply IH in H; [exact H|]. rewrite Hs, Hcode. cbn [last_code].
    destruct raised, ev; try exact Hc; try reflexivity. destruct exitcode; [reflexivity|exact Hc].
  Qed.
  Lemma trace_code rounds f id st st' code : syscallTrace rounds f id st = (st', Ret code) -> t_seen st = [] -> code = last_code (t_seen st').
  Proof.
    unfold StraceModel.syscallTrace. intros H Hs. apply tbind_ok in H as (st1 & u & H1 & H). eapply loop_code; [exact H|].
    pose proof (seen_prepare id st) as Hk. rewrite H1 in Hk. unfold same_seen in Hk. cbn [fst] in Hk. now rewrite Hk, Hs.
  Qed.
  Lemma loop_ended rounds f : forall code st st' code', trace_loop rounds f code st = (st', Ret code') -> d_list (t_dbg st') = [].
  Proof.
    induction rounds as [|rounds IH]; intros code st st' code'; [discriminate|]. cbn [StraceModel.trace_loop]. intros H.
    apply tbind_ok in H as (st0 & s & H0 & H). injection H0 as <- <-. destruct (d_list (t_dbg st)) as [|x l] eqn:E; [injection H as <- <-; exact E|].
    apply tbind_ok in H as (st1 & code1 & _ & H). eapply IH; exact H.
  Qed.

  (** *** C51 *)
  Lemma syscall_ok id s d d' : syscall K p id s d = (d', Ret tt) -> exists q, nth_error (d_procs d) id = Some q /\
    made d d' [KSyscall id (pr_pid q) (if s =? 5 then 0 else s)] /\ d' = with_stopped (add_call d (KSyscall id (pr_pid q) (if s =? 5 then 0 else s))) id false.
  Proof.
    intros H. destruct (nth_error (d_procs d) id) as [q|] eqn:Hq; [|unfold syscall, dbind, get_proc in H; rewrite Hq in H; discriminate H].
    destruct (running_openbsd p) eqn:Hb; [unfold syscall, dbind, get_proc in H; rewrite Hq, Hb in H; discriminate H|].
    rewrite (syscall_spec K p id s d q Hb Hq) in H. cbn zeta in H. destruct (k_do K _ _); [|discriminate H]. injection H as <-. exists q. split; [reflexivity|]. split; reflexivity.
  Qed.
  Lemma proc_syscall_ok id s st st' : proc_syscall p K id s st = (st', Ret tt) -> exists q, nth_error (d_procs (t_dbg st)) id = Some q /\
    made (t_dbg st) (t_dbg st') [KSyscall id (pr_pid q) (if s =? 5 then 0 else s)] /\
    t_dbg st' = with_stopped (add_call (t_dbg st) (KSyscall id (pr_pid q) (if s =? 5 then 0 else s))) id false /\
    t_sys st' = t_sys st /\ t_ready st' = t_ready st /\ t_log st' = t_log st.
  Proof.
    unfold proc_syscall, tdbg. destruct (syscall K p id s (t_dbg st)) as [d r] eqn:E. intros [= <- ->]. apply syscall_ok in E as (q & H1 & H2 & H3).
    exists q. cbn [t_dbg set_dbg]. split; [exact H1|]. split; [exact H2|]. split; [exact H3|]. repeat split.
  Qed.
  Lemma wait_none_resumed f l pid d : running_linux p = true ->
    exists new, made d (fst (waitSignals K p f l pid d)) new /\ filter resuming new = [].
  Proof.
    intros Hl. assert (ticks (ordinary false) d (fst (waitSignals K p f l pid d))) as Ht.
    { unfold waitSignals, waitSignals_. assert (forall q, exit_query q = false -> within (ordinary false) (wait K p f q)) as Hw.
      { intros q Hq. apply within_wait; [|congruence]. unfold running_bsd. rewrite Hl. discriminate. }
      apply (within_bind (ordinary false)); [apply Hw; now destruct pid|]. intros [ev|]; [|apply within_raise]. destruct ev; try apply within_throw. destruct (_ || _); [apply within_ret|apply within_throw]. }
    apply ticks_calls in Ht as (new & H1 & H2). exists new. split; [exact H1|]. clear H1. induction new as [|c new IH]; [reflexivity|]. cbn [filter].
    assert (resuming c = false) as ->.
    { destruct (H2 c (or_introl eq_refl)) as [[s Hs]|(i & pid' & ->)]; [|reflexivity]. destruct c; cbn in Hs |- *; try reflexivity; try contradiction. destruct Hs as [Hs _]. discriminate Hs. }
    apply IH. intros c' Hc'. apply H2. now right.
  Qed.
  Lemma waitSyscall_eq f d : waitSyscall K p f None d = waitSignals K p f [if d_sysgood d then 133 else 5] None d.
  Proof. rewrite syscall_signal by discriminate. reflexivity. Qed.
  Lemma signals_within f l pid d : ticks anything d (fst (waitSignals K p f l pid d)).
  Proof. apply within_any_signals. Qed.
  (** Process identifiers and parents do not change. *)
  Definition grown (d d' : dstate) : Prop := forall id q, nth_error (d_procs d) id = Some q ->
    exists q', nth_error (d_procs d') id = Some q' /\ pr_pid q' = pr_pid q /\ pr_parent q' = pr_parent q.
  Lemma grown_refl d : grown d d. Proof. intros id q H. exists q. auto. Qed.
  Lemma grown_trans a b c : grown a b -> grown b c -> grown a c.
  Proof. intros H1 H2 id q H. destruct (H1 id q H) as (q1 & E1 & P1 & P2). destruct (H2 id q1 E1) as (q2 & E2 & P3 & P4). exists q2. rewrite P3, P4. auto. Qed.
  Lemma ticks_grown P d d' : ticks P d d' -> grown d d'.
  Proof. intros Ht id q H. destruct (ticks_keep _ _ _ _ _ Ht H) as (q' & H' & (I1 & I2 & I3 & I4 & _)). exists q'. auto. Qed.
  Lemma ticks_exec P d d' : ticks P d d' -> d_trace_exec d' = d_trace_exec d.
  Proof. induction 1 as [|d d1 d2 Ht _ IH]; [reflexivity|]. rewrite IH. destruct Ht; reflexivity. Qed.
  Lemma stopped_grown d id b : grown d (with_stopped d id b).
  Proof.
    intros i q H. unfold with_stopped. cbn [set_procs d_procs]. rewrite nth_upd_nth. destruct (Nat.eqb_spec i id) as [->|Hn].
    - rewrite H. cbn. eexists. split; [reflexivity|]. auto.
    - exists q. auto.
  Qed.
  Lemma proc_syscall_grown id s st st' : proc_syscall p K id s st = (st', Ret tt) -> grown (t_dbg st) (t_dbg st').
  Proof. intros H. apply proc_syscall_ok in H as (q & _ & _ & -> & _). eapply grown_trans; [|apply stopped_grown]. exact (grown_refl _). Qed.
  Lemma pid_grown d d' id pid : grown d d' -> process_pid d id pid -> process_pid d' id pid.
  Proof. intros H (q & Hq & Hp). destruct (H id q Hq) as (q' & H1 & H2 & _). exists q'. split; [exact H1|congruence]. Qed.

  Lemma display_ok id c st st' c' : displaySyscall id c st = (st', Ret c') -> exists f t,
    format p ns repr_fs (syscall_options o) (st_view (the_stop stops st id)) (c_func c) = Ok (f, t) /\
    c' = SyscallCall f (c_number c) (c_result c) (c_result_text c) (c_instr_pointer c) /\
    st' = TState (t_dbg st) (t_sys st) (t_ready st) (LSyscall id c' (syscall_line p o (pid_of st id) c' t) :: t_log st) (t_seen st).
  Proof.
    unfold StraceModel.displaySyscall. intros H. apply tbind_ok in H as (st0 & s & H0 & H). injection H0 as <- <-. apply tbind_ok in H as (st1 & [f t] & H1 & H).
    unfold tres in H1. destruct (format _ _ _ _ _ _) as [[f' t']|e]; [|discriminate H1]. injection H1 as <- -> ->. cbn [fst snd] in H. injection H as <- <-.
    exists f, t. auto.
  Qed.
  Lemma keep_ok id c st st' : keep_call id c st = (st', Ret tt) -> t_dbg st' = t_dbg st /\ t_ready st' = t_ready st /\ t_log st' = t_log st /\ t_seen st' = t_seen st.
  Proof. unfold keep_call. intros [= <-]. destruct (ss_syscall _); auto. Qed.
  Lemma show_dbg id c st st' : tbind (displaySyscall id c) (keep_call id) st = (st', Ret tt) -> t_dbg st' = t_dbg st /\ t_ready st' = t_ready st.
  Proof. intros H. apply tbind_ok in H as (st1 & c1 & H1 & H). apply display_ok in H1 as (f & t & _ & _ & ->). apply keep_ok in H as (-> & -> & _). auto. Qed.
  Lemma text_execve s : text_eqb (get (ss_name s)) (T "execve") = true <-> ss_name s = Some (T "execve").
  Proof.
    rewrite text_eqb_eq. destruct (ss_name s) as [n|]; cbn [get]; split; try congruence. intros H. discriminate H.
  Qed.
  Lemma state_event_ok f id st st' r : state_event f id st = (st', Ret r) ->
    exists s d, ss_event p ns repr_fs errorcode strerror K true (if is_ready st id then Some (ignoreSyscall o only) else None) (syscall_options o) f id
        (the_stop stops st id) (state_of st id, t_dbg st) = ((s, d), Ret r) /\
      st' = TState d (dset Nat.eqb id s (t_sys st)) (t_ready st) (t_log st) (t_seen st).
  Proof. unfold StraceModel.state_event. destruct (ss_event _ _ _ _ _ _ _ _ _ _ _ _ _) as [[s d] r']. intros [= <- ->]. exists s, d. auto. Qed.
  Lemma state_event_calls f id st st' r : running_linux p = true -> state_event f id st = (st', Ret r) ->
    exists new, made (t_dbg st) (t_dbg st') new /\ grown (t_dbg st) (t_dbg st') /\
      ((leaves_execve st id /\ exists pid, process_pid (t_dbg st) id pid /\ filter resuming new = [KSyscall id pid 0]) \/
       (~ leaves_execve st id /\ filter resuming new = [])).
  Proof.
    intros Hl H. apply state_event_ok in H as (s & d & He & ->). cbn [t_dbg]. unfold leaves_execve.
    destruct (ss_exit (state_of st id)) eqn:Ex.
    - apply exit_step in He as (_ & _ & Hd); [|exact Ex]. unfold exec_skipped in Hd. cbn [andb] in Hd.
      destruct (text_eqb (get (ss_name (state_of st id))) (T "execve")) eqn:En; cbn [andb] in Hd.
      + destruct (d_trace_exec (t_dbg st)) eqn:Et; cbn [negb] in Hd.
        * subst d. exists []. split; [reflexivity|]. split; [apply grown_refl|]. right. split; [|reflexivity]. intros (_ & _ & H). discriminate H.
        * unfold skip_exec_trap in Hd. unfold dbind at 1 in Hd. destruct (syscall K p id 0 (t_dbg st)) as [d1 [[]|x]] eqn:Es; [|discriminate Hd].
          apply syscall_ok in Es as (q & Hq & Hm & Hd1). cbn [Z.eqb] in Hm, Hd1.
          assert (grown (t_dbg st) d1) as Hg. { rewrite Hd1. eapply grown_trans; [|apply stopped_grown]. exact (grown_refl _). }
          unfold dbind at 1 in Hd. destruct (get_proc id d1) as [d2 [q1|x]] eqn:Eg; [|discriminate Hd].
          assert (d2 = d1) as ->. { unfold get_proc in Eg. destruct (nth_error (d_procs d1) id); [now injection Eg|discriminate Eg]. }
          unfold dbind in Hd. destruct (waitSignals K p f [SIGTRAP; Z.lor SIGTRAP 128] (Some (pr_pid q1)) d1) as [d3 [ev|x]] eqn:Ew; [|discriminate Hd]. injection Hd as <-.
          destruct (wait_none_resumed f [SIGTRAP; Z.lor SIGTRAP 128] (Some (pr_pid q1)) d1 Hl) as (new & Hn1 & Hn2). rewrite Ew in Hn1. cbn [fst] in Hn1.
          exists ([KSyscall id (pr_pid q) 0] ++ new). split; [eapply made_trans; eassumption|]. split.
          { eapply grown_trans; [exact Hg|]. pose proof (signals_within f [SIGTRAP; Z.lor SIGTRAP 128] (Some (pr_pid q1)) d1) as Ht. rewrite Ew in Ht. eapply ticks_grown; exact Ht. }
          left. split; [split; [reflexivity|split; [apply text_execve; exact En|reflexivity]]|]. exists (pr_pid q). split; [now exists q|]. cbn [app filter resuming]. now rewrite Hn2.
      + subst d. exists []. split; [reflexivity|]. split; [apply grown_refl|]. right. split; [|reflexivity]. intros (_ & H & _). apply text_execve in H. congruence.
    - apply enter_step in He as (regs & c & _ & _ & _ & -> & _); [|exact Ex]. exists []. split; [reflexivity|]. split; [apply grown_refl|]. right. split; [|reflexivity]. intros (H & _). discriminate H.
  Qed.

  Lemma made_same d d' : d_calls d' = d_calls d -> made d d' []. Proof. intros H. exact H. Qed.
  Lemma exit_dbg id s c st st' : handle_exit id s c st = (st', Ret tt) -> t_dbg st' = t_dbg st.
  Proof.
    unfold StraceModel.handle_exit. intros H. apply tbind_ok in H as (st0 & s0 & H0 & H). injection H0 as <- <-. apply tbind_ok in H as (st1 & u & H1 & H).
    unfold tlog in H. injection H as <-. cbn [t_dbg]. destruct (ss_syscall (state_of st id)) as [c0|]; [|now injection H1 as <- _]. destruct (_ && _); [|now injection H1 as <- _].
    destruct u. now apply show_dbg in H1.
  Qed.
  Lemma get_proc_ok id st st' q : tdbg (get_proc id) st = (st', Ret q) -> st' = st /\ nth_error (d_procs (t_dbg st)) id = Some q.
  Proof.
    unfold tdbg, get_proc. destruct (nth_error (d_procs (t_dbg st)) id) as [q'|]; intros [= <-]; subst. split; [|reflexivity]. destruct st; reflexivity.
  Qed.
  (** What is done after the event has been seen. *)
  Lemma event_resumes f code raised ev st st' code' : running_linux p = true -> handle_event f code raised ev st = (st', Ret code') ->
    exists new, made (t_dbg st) (t_dbg st') new /\ answered st (t_dbg st') raised ev (filter resuming new).
  Proof.
    intros Hl. unfold StraceModel.handle_event. destruct raised, ev as [id s c|id|id|s id]; intros H; try discriminate H.
    - apply tbind_ok in H as (st1 & [] & H1 & H). injection H as <- _. apply exit_dbg in H1. exists []. split; [apply made_same; now rewrite H1|]. constructor.
    - apply tbind_ok in H as (st1 & [] & H1 & H). injection H as <- _. unfold handle_execution in H1. apply tbind_ok in H1 as (st0 & s0 & H0 & H1). injection H0 as <- <-.
      apply tbind_ok in H1 as (st2 & [] & H2 & H1). injection H2 as <-. pose proof (proc_syscall_grown _ _ _ _ H1) as Hg. apply proc_syscall_ok in H1 as (q & Hq & Hm & _). cbn [t_dbg] in *.
      eexists. split; [exact Hm|]. constructor. eapply pid_grown; [exact Hg|now exists q].
    - apply tbind_ok in H as (st1 & [] & H1 & H). injection H as <- _. unfold StraceModel.handle_new in H1. apply tbind_ok in H1 as (st0 & s0 & H0 & H1). injection H0 as <- <-.
      apply tbind_ok in H1 as (st2 & [] & H2 & H1). injection H2 as <-. apply tbind_ok in H1 as (st3 & [] & H3 & H1). unfold prepareProcess in H3. apply tbind_ok in H3 as (st4 & [] & H4 & H3). injection H3 as <-.
      apply tbind_ok in H1 as (st5 & q5 & H5 & H1). destruct (pr_parent q5) as [parent|] eqn:Ep; [|discriminate H1].
      pose proof (proc_syscall_grown _ _ _ _ H4) as Hg4. apply proc_syscall_ok in H4 as (q & Hq & Hm & _).
      apply get_proc_ok in H5 as (-> & Hq5).
      pose proof (proc_syscall_grown _ _ _ _ H1) as Hg1. apply proc_syscall_ok in H1 as (q' & Hq' & Hm' & _).
      cbn [t_dbg] in *. eexists. split; [eapply made_trans; [exact Hm|exact Hm']|]. cbn [app filter resuming Z.eqb]. constructor.
      + eapply pid_grown; [eapply grown_trans; [exact Hg4|exact Hg1]|]. now exists q.
      + destruct (Hg1 _ _ Hq5) as (q6 & E6 & _ & P6). exists q6. split; [exact E6|congruence].
      + eapply pid_grown; [exact Hg1|]. now exists q'.
    - apply tbind_ok in H as (st1 & [] & H1 & H). apply tbind_ok in H as (st2 & [] & H2 & H). injection H as <- _.
      pose proof (proc_syscall_grown _ _ _ _ H2) as Hg. apply proc_syscall_ok in H2 as (q & Hq & Hm & _).
      unfold tdbg, request in H1. destruct (k_do K _ _); [|discriminate H1]. injection H1 as <-. cbn [t_dbg set_dbg] in *.
      exists ([KDisplay id s] ++ [KSyscall id (pr_pid q) (if s =? 5 then 0 else s)]). split; [eapply made_trans; [|exact Hm]; reflexivity|]. cbn [app filter resuming]. constructor.
      eapply pid_grown; [exact Hg|]. now exists q.
    - apply tbind_ok in H as (st1 & [] & H1 & H). injection H as <- _. unfold StraceModel.handle_syscall in H1. apply tbind_ok in H1 as (st2 & r & H2 & H1). apply tbind_ok in H1 as (st3 & [] & H3 & H1).
      apply (state_event_calls f id st st2 r Hl) in H2 as (new & Hm & Hg & Hcase).
      assert (t_dbg st3 = t_dbg st2) as E32.
      { destruct r as [c|]; [|now injection H3 as <-]. destruct (_ || _); [|now injection H3 as <-]. now apply show_dbg in H3. }
      pose proof (proc_syscall_grown _ _ _ _ H1) as Hg1. apply proc_syscall_ok in H1 as (q & Hq & Hm1 & _). rewrite E32 in *.
      eexists. split; [eapply made_trans; [exact Hm|exact Hm1]|]. cbn [Z.eqb]. rewrite filter_app.
      assert (process_pid (t_dbg st1) id (pr_pid q)) as Hpid by (eapply pid_grown; [exact Hg1|now exists q]).
      destruct Hcase as [(Hx & pid & Hp & ->)|(Hx & ->)]; cbn [app filter resuming].
      + assert (pid = pr_pid q) as ->; [|now constructor]. apply (pid_grown _ _ _ _ Hg) in Hp as (q2 & E2 & <-). congruence.
      + now constructor.
  Qed.
  Lemma round_resumes f code st st' code' : running_linux p = true -> round f code st = (st', Ret code') ->
    exists raised ev waited handled, t_seen st' = (raised, ev) :: t_seen st /\ made (t_dbg st) (t_dbg st') (waited ++ handled) /\
      filter resuming waited = [] /\ answered st (t_dbg st') raised ev (filter resuming handled).
  Proof.
    intros Hl H. pose proof H as H0. apply round_seen in H0 as (raised & ev & Hs & _). apply round_split in H as (raised' & ev' & st1 & Hw & H).
    assert (exists r, tdbg (waitSyscall K p f None) st = (st1, r)) as (r & Hr) by (destruct raised'; eexists; exact Hw).
    destruct (wait_seen f st st1 r Hr) as (W1 & W2 & W3 & W4 & W5).
    pose proof (seen_event f code raised' ev' (TState (t_dbg st1) (t_sys st1) (t_ready st1) (t_log st1) ((raised', ev') :: t_seen st1))) as Hk.
    rewrite H in Hk. unfold same_seen in Hk. cbn [fst t_seen] in Hk. rewrite Hk, W1 in Hs. injection Hs as -> ->.
    apply event_resumes in H as (handled & Hm & Ha); [|exact Hl]. cbn [t_dbg] in Hm.
    rewrite waitSyscall_eq in W5. destruct (wait_none_resumed f [if d_sysgood (t_dbg st) then 133 else 5] None (t_dbg st) Hl) as (waited & Hw1 & Hw2).
    pose proof (signals_within f [if d_sysgood (t_dbg st) then 133 else 5] None (t_dbg st)) as Ht. rewrite W5 in Hw1, Ht. cbn [fst] in Hw1, Ht.
    exists raised, ev, waited, handled. split; [rewrite Hk, W1; reflexivity|]. split; [eapply made_trans; eassumption|]. split; [exact Hw2|].
    assert (forall id, leaves_execve (TState (t_dbg st1) (t_sys st1) (t_ready st1) (t_log st1) ((raised, ev) :: t_seen st1)) id <-> leaves_execve st id) as Hx.
    { intros id. unfold leaves_execve, state_of. cbn [t_sys t_dbg]. rewrite W2. now rewrite (ticks_exec _ _ _ Ht). }
    destruct Ha; constructor; try assumption; rewrite <- Hx; assumption.
  Qed.
End Facts.
