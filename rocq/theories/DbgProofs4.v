From Coq Require Import ZArith List Ascii String Bool Lia.
From Verif Require Import PyBase PyFacts Platform DbgModel DbgSpec DbgProofs DbgProofs2 DbgProofs3.
Import ListNotations.
Open Scope Z_scope.

Section Facts.
  Context (K : dkernel) (p : platform).

  Lemma gone_left st id q : nth_error (d_procs st) id = Some q -> left_debugger st id (gone st id q).
  Proof.
    intros H. destruct (gone_facts st id q H) as (A & B & C & D & E). repeat split; auto; intros.
    - now destruct D.
    - unfold gone. destruct (pr_is_attached q) eqn:Ea.
      + intros (q' & H1' & H2'). cbn in H1'. rewrite !nth_upd_nth, Nat.eqb_refl, H in H1'. injection H1' as <-. discriminate.
      + destruct H0 as (q' & H1' & H2'). congruence.
    - destruct D as (D1 & D2 & D3); auto.
    - now apply E.
    - now apply E.
  Qed.

  (** *** C23 *)
  Lemma status_exit_eq f id status q st : running_linux p = true -> nth_error (d_procs st) id = Some q -> status mod 128 = 0 ->
    processStatus K p f id status st = (gone st id q, Ret (ProcessExit id None (Some ((status / 256) mod 256)))).
  Proof.
    intros Hl Hq Hs.
    unfold processStatus, processStatus_, WIFEXITED. rewrite termsig_mod, Hs. cbn [Z.eqb]. unfold processExited_, dbind at 1. rewrite (get_proc_eq st id q Hq).
    unfold running_bsd. rewrite Hl. cbn [negb andb]. unfold dbind at 1, dret at 1. unfold dbind. rewrite (notRunning_eq K st id q Hq).
    rewrite exitstatus_div. reflexivity.
  Qed.
  Lemma status_killed_eq f id status q st : nth_error (d_procs st) id = Some q -> 1 <= status mod 128 <= 126 ->
    processStatus K p f id status st = (gone st id q, Ret (ProcessExit id (Some (status mod 128)) None)).
  Proof.
    intros Hq Hs.
    unfold processStatus, processStatus_, WIFEXITED, WIFSIGNALED. rewrite termsig_mod.
    destruct (status mod 128 =? 0) eqn:E0; [apply Z.eqb_eq in E0; lia|].
    assert ((1 <=? status mod 128) && (status mod 128 <=? 126) = true) as -> by (apply andb_true_iff; rewrite !Z.leb_le; exact Hs).
    unfold processKilled, dbind. rewrite (notRunning_eq K st id q Hq). reflexivity.
  Qed.
  Lemma status_exit f id status q st : running_linux p = true -> nth_error (d_procs st) id = Some q -> status mod 128 = 0 ->
    exists st', processStatus K p f id status st = (st', Ret (ProcessExit id None (Some ((status / 256) mod 256)))) /\ left_debugger st id st'.
  Proof. intros Hl Hq Hs. exists (gone st id q). split; [now apply status_exit_eq|now apply gone_left]. Qed.
  Lemma status_killed f id status q st : nth_error (d_procs st) id = Some q -> 1 <= status mod 128 <= 126 ->
    exists st', processStatus K p f id status st = (st', Ret (ProcessExit id (Some (status mod 128)) None)) /\ left_debugger st id st'.
  Proof. intros Hq Hs. exists (gone st id q). split; [now apply status_killed_eq|now apply gone_left]. Qed.
  Lemma stop_cases f id status st : status mod 128 = 127 ->
    processStatus K p f id status st =
      (if negb (status mod 256 =? 127) then draise EProcessError
       else if has_ptrace_events p && negb (status / 65536 =? 0) then ptraceEvent_ K p (wait K p f) id (status / 65536)
       else processSignal id ((status / 256) mod 256)) st.
  Proof.
    intros Hs. unfold processStatus, processStatus_, WIFEXITED, WIFSIGNALED. rewrite termsig_mod, Hs. cbn [Z.eqb Z.leb Z.compare Pos.compare Pos.compare_cont andb].
    rewrite stopped_mod, event_div. unfold WSTOPSIG. rewrite exitstatus_div. reflexivity.
  Qed.
  Lemma status_meaningless f id status st : meaningless status -> processStatus K p f id status st = (st, Raise (XErr EProcessError)).
  Proof. intros [H1 H2]. rewrite stop_cases by exact H1. apply Z.eqb_neq in H2. rewrite H2. reflexivity. Qed.
  Lemma status_stop f id status st : status mod 256 = 127 -> (status / 65536 = 0 \/ running_linux p = false) ->
    processStatus K p f id status st = (with_stopped st id true, Ret (ProcessSignal ((status / 256) mod 256) id)).
  Proof.
    intros H1 H2. rewrite stop_cases by now apply mod128_256. rewrite H1. cbn [Z.eqb Pos.eqb negb].
    replace (has_ptrace_events p && negb (status / 65536 =? 0)) with false; [reflexivity|].
    destruct H2 as [->|H2]; [now rewrite andb_false_r|]. unfold has_ptrace_events. now rewrite H2.
  Qed.
  Lemma status_exec f id status st : running_linux p = true -> status mod 256 = 127 -> status / 65536 = 4 ->
    processStatus K p f id status st = (st, Ret (ProcessExecution id)).
  Proof.
    intros Hl H1 H2. rewrite stop_cases by now apply mod128_256. rewrite H1, H2. unfold has_ptrace_events, ptraceEvent_, has_ptrace_events.
    rewrite Hl. reflexivity.
  Qed.
  Lemma status_other f id status st : running_linux p = true -> status mod 256 = 127 -> ~ 0 <= status / 65536 <= 4 ->
    processStatus K p f id status st = (st, Raise (XErr EProcessError)).
  Proof.
    intros Hl H1 H2. rewrite stop_cases by now apply mod128_256. rewrite H1. unfold ptraceEvent_, has_ptrace_events.
    rewrite Hl. cbn [Z.eqb Pos.eqb negb andb]. unfold PTRACE_EVENT_FORK, PTRACE_EVENT_VFORK, PTRACE_EVENT_CLONE, PTRACE_EVENT_EXEC.
    destruct (Z.eqb_spec (status / 65536) 0), (Z.eqb_spec (status / 65536) 1), (Z.eqb_spec (status / 65536) 2),
      (Z.eqb_spec (status / 65536) 3), (Z.eqb_spec (status / 65536) 4); try lia. reflexivity.
  Qed.
  Lemma status_new f id status q st : running_linux p = true -> nth_error (d_procs st) id = Some q ->
    status mod 256 = 127 -> 1 <= status / 65536 <= 3 ->
    processStatus K p f id status st =
      let st1 := add_call st (KEventMsg id (pr_pid q)) in
      match k_msg K (List.length (d_calls st)) (pr_pid q) with
      | Err e => (st1, Raise (XErr e))
      | Ok new_pid =>
          match addProcess K p f new_pid true (Some id) (status / 65536 =? 3) st1 with
          | (st2, Ret child) => (st2, Ret (NewProcessEvent child))
          | (st2, Raise x) => (st2, Raise x)
          end
      end.
  Proof.
    intros Hl Hq H1 H2. rewrite stop_cases by now apply mod128_256. rewrite H1. unfold ptraceEvent_, has_ptrace_events.
    rewrite Hl. cbn [Z.eqb Pos.eqb negb andb]. unfold PTRACE_EVENT_FORK, PTRACE_EVENT_VFORK, PTRACE_EVENT_CLONE, PTRACE_EVENT_EXEC.
    destruct (Z.eqb_spec (status / 65536) 0); [lia|]. cbn [negb].
    assert ((status / 65536 =? 1) || (status / 65536 =? 2) || (status / 65536 =? 3) = true) as ->.
    { rewrite !orb_true_iff, !Z.eqb_eq. lia. }
    unfold dbind at 1. rewrite (get_proc_eq st id q Hq). unfold dbind at 1, ptrace_geteventmsg. cbn zeta.
    destruct (k_msg _ _ _); [|reflexivity]. unfold dbind, addProcess. destruct (addProcess_ _ _ _ _ _ _ _ _) as [? [?|?]]; reflexivity.
  Qed.
  Lemma encode_classes m : valid m ->
    match m with
    | Exited code => encode m mod 128 = 0 /\ (encode m / 256) mod 256 = code
    | Killed signum _ => encode m mod 128 = signum
    | Stopped signum => encode m mod 256 = 127 /\ encode m / 65536 = 0 /\ (encode m / 256) mod 256 = signum
    | TraceEvent ev => encode m mod 256 = 127 /\ encode m / 65536 = ev
    end.
  Proof.
    destruct m as [code|signum core|signum|ev]; cbn [valid encode]; intros H.
    - split; [|rewrite Z.div_mul by lia; now apply Z.mod_small].
      replace (code * 256) with ((code * 2) * 128) by ring. now apply Z.mod_mul.
    - destruct core; [replace (signum + 128) with (signum + 1 * 128) by ring; rewrite Z.mod_add by lia|rewrite Z.add_0_r]; apply Z.mod_small; lia.
    - rewrite Z.add_comm, Z.mod_add, Z.div_add by lia. split; [reflexivity|]. split; [apply Z.div_small; lia|].
      change (127 / 256) with 0. now apply Z.mod_small.
    - split.
      + replace (ev * 65536 + 5 * 256 + 127) with (127 + (ev * 256 + 5) * 256) by ring. now rewrite Z.mod_add by lia.
      + replace (ev * 65536 + 5 * 256 + 127) with ((5 * 256 + 127) + ev * 65536) by ring. now rewrite Z.div_add by lia.
  Qed.

  (** *** addProcess *)
  Lemma add_duplicate f pid a par th st : dmem Z.eqb pid (d_dict st) = true ->
    addProcess K p f pid a par th st = (st, Raise (XErr EKeyError)).
  Proof. intros H. unfold addProcess, addProcess_, dbind at 1, dget_state. rewrite H. reflexivity. Qed.
  Lemma add_attach_fails f pid par th st e : dmem Z.eqb pid (d_dict st) = false ->
    k_do K (List.length (d_calls st)) (KAttach pid) = Err e ->
    addProcess K p f pid false par th st = (add_call st (KAttach pid), Raise (XErr e)).
  Proof. intros H He. unfold addProcess, addProcess_, dbind at 1, dget_state. rewrite H. unfold dbind at 1, request. rewrite He. reflexivity. Qed.

  Definition start (pid : Z) (a : bool) (par : option nat) (th : bool) (st : dstate) : dstate :=
    enrol (if a then st else add_call st (KAttach pid)) (Proc pid true false a true true th par).
  Definition handshake (f : nat) (pid : Z) (id : nat) : D unit := fun st =>
    match waitSignals K p f [SIGTRAP; SIGSTOP] (Some pid) st with
    | (st, Ret _) => (st, Ret tt)
    | (st, Raise (XErr EKeyboardInterrupt)) => (st, Ret tt)
    | (st, Raise (XEvent (ProcessSignal signum who))) => request K (KDisplay who signum) st
    | (st, Raise x) => (upd st id (set_attached false), Raise x)
    end.
  Lemma detach_unattached id st : ~ attached st id -> nth_error (d_procs st) id <> None -> detach K id st = (st, Ret tt).
  Proof.
    intros Ha Hn. unfold detach, dbind at 1, get_proc. destruct (nth_error (d_procs st) id) as [q|] eqn:E; [|congruence].
    destruct (pr_is_attached q) eqn:Eq; [|reflexivity]. exfalso. apply Ha. exists q. auto.
  Qed.
  Lemma start_nth pid a par th st : nth_error (d_procs (start pid a par th st)) (List.length (d_procs st)) = Some (Proc pid true false a true true th par).
  Proof. unfold start, enrol. destruct a; cbn; rewrite nth_error_app2, Nat.sub_diag by lia; reflexivity. Qed.
  Lemma add_eq f pid a par th st : dmem Z.eqb pid (d_dict st) = false ->
    (a = false -> exists u, k_do K (List.length (d_calls st)) (KAttach pid) = Ok u) ->
    addProcess K p f pid a par th st =
      let id := List.length (d_procs st) in
      match handshake f pid id (start pid a par th st) with
      | (st, Raise x) => (st, Raise x)
      | (st, Ret _) =>
          if has_ptrace_events p && negb (d_options st =? 0) then
            match setoptions K p id (d_options st) st with (st, Ret _) => (st, Ret id) | (st, Raise x) => (st, Raise x) end
          else (st, Ret id)
      end.
  Proof.
    intros Hm Ha. unfold addProcess, addProcess_, dbind at 1, dget_state. rewrite Hm.
    set (rest := fun _ : unit => _). unfold dbind at 1.
    assert ((if a then dret tt else request K (KAttach pid)) st = (if a then st else add_call st (KAttach pid), Ret tt)) as ->.
    { destruct a; [reflexivity|]. unfold request. destruct (Ha eq_refl) as [u ->]. reflexivity. }
    unfold rest. clear rest. set (id := List.length (d_procs st)).
    set (st1 := start pid a par th st).
    pose proof (within_any_signals K p f [SIGTRAP; SIGSTOP] (Some pid) st1) as Ht.
    assert (nth_error (d_procs (fst (waitSignals K p f [SIGTRAP; SIGSTOP] (Some pid) st1))) id <> None) as Hn.
    { destruct (ticks_keep _ _ _ _ _ Ht (start_nth pid a par th st)) as (q & Hq & _). unfold id. congruence. }
    assert (forall s x, nth_error (d_procs s) id <> None -> 
      match upd_proc id (set_attached false) s with
      | (s', _) => match detach K id s' with (s', Ret _) => (s', Raise x) | (s', Raise x') => (s', @Raise unit x') end
      end = (upd s id (set_attached false), Raise x)) as Hd.
    { intros s x Hs. unfold upd_proc. fold (upd s id (set_attached false)). rewrite detach_unattached; [reflexivity| |].
      - intros (q & H1 & H2). cbn in H1. rewrite nth_upd_nth, Nat.eqb_refl in H1. destruct (nth_error (d_procs s) _); [|discriminate].
        injection H1 as <-. discriminate.
      - cbn. rewrite nth_upd_nth, Nat.eqb_refl. destruct (nth_error (d_procs s) _); [discriminate|congruence]. }
    unfold dbind at 1.
    replace (set_reg _ _ _) with st1 by (unfold st1, start, enrol, id; destruct a; reflexivity).
    cbn zeta. unfold dbind at 1, handshake, waitSignals. unfold waitSignals in Hn. 
    destruct (waitSignals_ (wait K p f) [SIGTRAP; SIGSTOP] (Some pid) st1) as [s o]. cbn [fst] in Hn.
    assert (forall s', dbind (fun s0 : dstate => if has_ptrace_events p && negb (d_options s0 =? 0) then setoptions K p id (d_options s0) s0 else (s0, Ret tt))
       (fun _ : unit => dret id) s' = 
       (if has_ptrace_events p && negb (d_options s' =? 0) then
            match setoptions K p id (d_options s') s' with (s1, Ret _) => (s1, Ret id) | (s1, Raise x) => (s1, Raise x) end
          else (s', Ret id))) as Hopt.
    { intros s'. unfold dbind. destruct (_ && _); [|reflexivity]. destruct (setoptions _ _ _ _ _) as [? [?|?]]; reflexivity. }
    destruct o as [u|[e|ev]]; [apply Hopt| |].
    - destruct e; try (rewrite Hd by exact Hn; reflexivity). apply Hopt.
    - destruct ev; try (rewrite Hd by exact Hn; reflexivity).
      destruct (request K _ s) as [s' [u|x]]; [apply Hopt|reflexivity].
  Qed.
  Lemma add_returns f pid a par th st st' id : addProcess K p f pid a par th st = (st', Ret id) ->
    id = List.length (d_procs st) /\ exists q, nth_error (d_procs st') id = Some q /\ pr_pid q = pid /\ pr_was_attached q = a /\
      pr_is_thread q = th /\ pr_parent q = par.
  Proof.
    intros H. destruct (dmem Z.eqb pid (d_dict st)) eqn:Em; [rewrite add_duplicate in H by exact Em; discriminate|].
    assert (a = false -> exists u, k_do K (List.length (d_calls st)) (KAttach pid) = Ok u) as Ha.
    { intros ->. destruct (k_do K (List.length (d_calls st)) (KAttach pid)) as [u|e] eqn:Ek; [eauto|].
      rewrite (add_attach_fails f pid par th st e Em Ek) in H. discriminate. }
    rewrite (add_eq f pid a par th st Em Ha) in H. cbn zeta in H.
    pose proof (within_any_signals K p f [SIGTRAP; SIGSTOP] (Some pid) (start pid a par th st)) as Ht.
    destruct (ticks_keep _ _ _ _ _ Ht (start_nth pid a par th st)) as (q & Hq & (I1 & I2 & I3 & I4 & _)). clear Ht. cbn in I1, I2, I3, I4.
    assert (forall st0, d_procs st0 = d_procs (fst (waitSignals K p f [SIGTRAP; SIGSTOP] (Some pid) (start pid a par th st))) ->
       (if has_ptrace_events p && negb (d_options st0 =? 0) then
            match setoptions K p (List.length (d_procs st)) (d_options st0) st0 with (s1, Ret _) => (s1, Ret (List.length (d_procs st))) | (s1, Raise x) => (s1, Raise x) end
          else (st0, Ret (List.length (d_procs st)))) = (st', Ret id) ->
       id = List.length (d_procs st) /\ d_procs st' = d_procs (fst (waitSignals K p f [SIGTRAP; SIGSTOP] (Some pid) (start pid a par th st)))) as Hfin.
    { intros st0 H0 H1. destruct (_ && _); [|injection H1 as <- <-; auto].
      unfold setoptions, dbind, get_proc in H1. rewrite H0, Hq in H1. destruct (negb _); [unfold draise in H1; discriminate|]. unfold request in H1.
      match type of H1 with context [k_do K ?a ?b] => destruct (k_do K a b) end; cbn in H1; [|congruence]. injection H1 as <- <-. auto. }
    assert (id = List.length (d_procs st) /\ d_procs st' = d_procs (fst (waitSignals K p f [SIGTRAP; SIGSTOP] (Some pid) (start pid a par th st)))) as [-> Hp].
    { unfold handshake in H. destruct (waitSignals K p f _ _ _) as [s o]. cbn [fst] in *.
      destruct o as [u|[e|ev]]; [now apply (Hfin s)| |].
      - destruct e; try discriminate. now apply (Hfin s).
      - destruct ev; try discriminate. unfold request in H. destruct (k_do K _ _); [|discriminate].
        eapply (Hfin (add_call s (KDisplay process signum))); eauto. }
    split; [reflexivity|]. exists q. rewrite Hp. auto.
  Qed.
End Facts.
