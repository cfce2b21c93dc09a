(** * StoryProofs: one process under strace.py, from its first stop to its end (C121). *)
From Coq Require Import ZArith List Ascii String Bool Lia.
From Verif Require Import PyBase PyFacts Platform IntModel RegModel SigModel ToolsModel ArgModel DbgModel DbgSpec DbgProofs DbgProofs2 DbgProofs3 DbgProofs4
  SysModel SysSpec StraceModel StraceSpec StraceProofs StraceProofs2 StraceProofs5 StorySpec.
Import ListNotations.
Open Scope Z_scope.

Section One.
  Context (K : dkernel) (p : platform) (pid : Z) (id : nat) (te : bool) (Hl : running_linux p = true) (Hpid : pid <> 0).

  (** The only process of the debugger; the [n] requests [cs] have been made, the last one first. *)
  Definition alone (d : dstate) (n : nat) (cs : list kcall) : Prop :=
    d_dict d = [(pid, id)] /\ d_list d = [id] /\
    (exists q, nth_error (d_procs d) id = Some q /\ pr_pid q = pid /\ pr_is_thread q = false /\ pr_is_attached q = true) /\
    d_sysgood d = true /\ d_trace_exec d = te /\ d_calls d = cs /\ List.length cs = n.

  Lemma alone_call d n cs c : alone d n cs -> alone (add_call d c) (S n) (c :: cs).
  Proof. intros (A & B & C & D & E & F & G). repeat split; cbn; auto; congruence. Qed.
  Lemma alone_stopped d n cs b : alone d n cs -> alone (with_stopped d id b) n cs.
  Proof.
    intros (A & B & (q & C1 & C2 & C3 & C4) & D & E & F & G). repeat split; cbn; auto.
    exists (set_stopped b q). rewrite nth_upd_nth, Nat.eqb_refl, C1. auto.
  Qed.
  Lemma resume d n cs s : alone d n cs -> k_do K n (KSyscall id pid (filterSignal s)) = Ok tt ->
    syscall K p id s d = (with_stopped (add_call d (KSyscall id pid (filterSignal s))) id false, Ret tt).
  Proof.
    intros (A & B & (q & C1 & C2 & C3 & C4) & D & E & F & G) Hk. unfold syscall, dbind at 1, get_proc. rewrite C1.
    assert (running_openbsd p = false) as ->.
    { revert Hl. unfold running_linux, running_openbsd. destruct (p_os p); [reflexivity|discriminate..]. }
    unfold dbind, request. rewrite F, G, C2, Hk. reflexivity.
  Qed.
  (** One blocking wait *)
  Lemma one_wait d n cs m f : alone d n cs -> k_wait K n pid 0 = Ok (pid, encode m) ->
    wait K p (S f) (QPid pid true) d =
      match processStatus K p f id (encode m) (add_call d (KWait pid 0)) with
      | (d, Ret ev) => (d, Ret (Some ev))
      | (d, Raise x) => (d, Raise x)
      end.
  Proof.
    intros (A & B & (q & C1 & C2 & C3 & C4) & D & E & F & G) Hk. cbn [wait]. unfold wait_event_pid_.
    assert (dget Z.eqb pid (d_dict d) = Some id) as Hd. { rewrite A. cbn. now rewrite Z.eqb_refl. }
    assert (waitpid_ K p pid true d = (add_call d (KWait pid 0), Ret (pid, encode m))) as ->.
    { unfold waitpid_. apply Z.eqb_neq in Hpid. rewrite Hpid. cbn [negb]. unfold dbind, dget_state. rewrite Hd. unfold get_proc. rewrite C1, C3. cbn [andb].
      unfold os_waitpid. rewrite F, G, Hk, Z.eqb_refl. reflexivity. }
    cbn [negb andb d_dict add_call]. rewrite Hd. unfold processStatus, dbind, dret. reflexivity.
  Qed.
  Lemma any_wait d n cs f : alone d n cs -> wait K p (S f) (QAny 1 true) d = wait K p f (QPid pid true) d.
  Proof. intros (A & _). cbn [wait]. unfold wait_any_, dbind, dget_state. rewrite A. reflexivity. Qed.
  Lemma wait_signal d n cs s f : alone d n cs -> 0 <= s < 256 -> k_wait K n pid 0 = Ok (pid, encode (Stopped s)) ->
    wait K p (S f) (QPid pid true) d = (with_stopped (add_call d (KWait pid 0)) id true, Ret (Some (ProcessSignal s id))).
  Proof.
    intros Ha Hs Hk. rewrite (one_wait d n cs (Stopped s)) by assumption.
    destruct (encode_classes (Stopped s) Hs) as (E1 & E2 & E3). rewrite status_stop by auto. rewrite E3. reflexivity.
  Qed.
  Lemma wait_call d n cs f : alone d n cs -> reports K pid n CALL_STOP ->
    waitSyscall K p (S (S f)) None d = (with_stopped (add_call d (KWait pid 0)) id true, Ret (ProcessSignal 133 id)).
  Proof.
    intros Ha Hk. unfold waitSyscall, dbind at 1, dget_state. pose proof Ha as (A & B & C & D & E & F & G). rewrite D.
    unfold waitSignals, waitSignals_, wait_event_query. unfold dbind. rewrite (any_wait d n cs) by exact Ha.
    rewrite (wait_signal d n cs 133) by (auto; lia). reflexivity.
  Qed.
  Lemma wait_other d n cs s f : alone d n cs -> 1 <= s < 128 -> reports K pid n (Stopped s) ->
    waitSyscall K p (S (S f)) None d = (with_stopped (add_call d (KWait pid 0)) id true, Raise (XEvent (ProcessSignal s id))).
  Proof.
    intros Ha Hs Hk. unfold waitSyscall, dbind at 1, dget_state. pose proof Ha as (A & B & C & D & E & F & G). rewrite D.
    unfold waitSignals, waitSignals_, wait_event_query. unfold dbind. rewrite (any_wait d n cs) by exact Ha.
    rewrite (wait_signal d n cs s) by (auto; lia). change (Z.lor SIGTRAP 128) with 133. cbn [existsb].
    destruct (Z.eqb_spec s 133); [lia|]. reflexivity.
  Qed.
  (** The SIGTRAP after execve() *)
  Lemma wait_trap d n cs f : alone d n cs -> reports K pid n (Stopped 5) ->
    waitSignals K p (S f) [SIGTRAP; Z.lor SIGTRAP 0x80] (Some pid) d = (with_stopped (add_call d (KWait pid 0)) id true, Ret (ProcessSignal 5 id)).
  Proof.
    intros Ha Hk. unfold waitSignals, waitSignals_, wait_event_query, dbind. rewrite (wait_signal d n cs 5) by (auto; lia). reflexivity.
  Qed.
  (** The event of an execution *)
  Lemma wait_execution d n cs f : alone d n cs -> reports K pid n (TraceEvent PTRACE_EVENT_EXEC) ->
    waitSyscall K p (S (S f)) None d = (add_call d (KWait pid 0), Raise (XEvent (ProcessExecution id))).
  Proof.
    intros Ha Hk. unfold waitSyscall, dbind at 1, dget_state. pose proof Ha as (A & B & C & D & E & F & G). rewrite D.
    unfold waitSignals, waitSignals_, wait_event_query. unfold dbind. rewrite (any_wait d n cs) by exact Ha.
    rewrite (one_wait d n cs (TraceEvent PTRACE_EVENT_EXEC)) by assumption.
    rewrite stop_cases by reflexivity. unfold has_ptrace_events. rewrite Hl. cbn [orb andb].
    unfold ptraceEvent_, has_ptrace_events. rewrite Hl. reflexivity.
  Qed.
  Definition exit_signal (m : status_meaning) : option Z := match m with Killed s _ => Some s | _ => None end.
  Definition exit_code (m : status_meaning) : option Z := match m with Exited c => Some c | _ => None end.
  Lemma wait_end d n cs m f : alone d n cs -> deadly m -> reports K pid n m ->
    exists d', waitSyscall K p (S (S f)) None d = (d', Raise (XEvent (ProcessExit id (exit_signal m) (exit_code m)))) /\
      d_list d' = [] /\ d_calls d' = KWait pid 0 :: cs /\ List.length (d_calls d') = S n /\ (exists q, nth_error (d_procs d') id = Some q /\ pr_pid q = pid).
  Proof.
    intros Ha Hm Hk. pose proof Ha as (A & B & (q & C1 & C2 & C3 & C4) & D & E & F & G).
    set (d1 := add_call d (KWait pid 0)). exists (gone d1 id q). split.
    - unfold waitSyscall, dbind at 1, dget_state. rewrite D. unfold waitSignals, waitSignals_, wait_event_query. unfold dbind.
      rewrite (any_wait d n cs) by exact Ha. rewrite (one_wait d n cs m) by assumption. fold d1.
      assert (nth_error (d_procs d1) id = Some q) as Hq by exact C1.
      destruct m as [code|s core|s|ev]; [| |contradiction..].
      + destruct (encode_classes (Exited code) Hm) as (E1 & E2). rewrite (status_exit_eq K p f id _ q) by assumption. rewrite E2. reflexivity.
      + pose proof (encode_classes (Killed s core) Hm) as E1. cbn [deadly valid] in Hm. rewrite (status_killed_eq K p f id _ q) by (auto; rewrite E1; lia). rewrite E1. reflexivity.
    - unfold gone. rewrite C4. cbn. rewrite B. cbn. rewrite Nat.eqb_refl. split; [reflexivity|]. rewrite F. split; [reflexivity|]. split; [now rewrite G|].
      eexists. rewrite !nth_upd_nth, Nat.eqb_refl, C1. cbn. split; [reflexivity|exact C2].
  Qed.
End One.

Section Strace.
  Context (p : platform) (ns : namespace) (repr_fs : list byte -> text) (errorcode : list (Z * text)) (strerror : Z -> text)
          (K : dkernel) (stops : nat -> nat -> stop) (o : soptions) (only : list text) (pid : Z) (id : nat)
          (Hl : running_linux p = true) (Hpid : pid <> 0).
  Notation alone := (alone pid id (s_trace_exec o)).
  Notation round := (round p ns repr_fs errorcode strerror K stops o only).
  Notation trace_loop := (trace_loop p ns repr_fs errorcode strerror K stops o only).
  Notation handle_syscall := (handle_syscall p ns repr_fs errorcode strerror K stops o only).
  Notation displaySyscall := (displaySyscall p ns repr_fs stops o).
  Notation state_event := (state_event p ns repr_fs errorcode strerror K stops o only).
  Notation enters := (enters p).
  Notation with_arguments := (with_arguments p ns repr_fs o).
  Notation line_of := (line_of p ns repr_fs o pid id).
  Notation announced := (announced p ns repr_fs o pid id).
  Notation call_lines := (call_lines p ns repr_fs errorcode strerror o only pid id).
  Notation story := (story p ns repr_fs errorcode strerror o only pid id).
  Notation end_lines := (end_lines p ns repr_fs o only pid id).
  Notation end_line := (end_line ns pid).

  (** The process is alone and has been prepared; [s] is the state of its system calls, [log] what has been written. *)
  Definition watched (st : tstate) (n : nat) (cs : list kcall) (s : sstate) (log : list tline) : Prop :=
    alone (t_dbg st) n cs /\ is_ready st id = true /\ state_of st id = s /\ t_log st = log.

  Lemma pid_alone st n cs : alone (t_dbg st) n cs -> pid_of st id = pid.
  Proof. intros (_ & _ & (q & C1 & C2 & _) & _). unfold pid_of. rewrite C1. exact C2. Qed.
  Lemma state_set st s : state_of (set_sys st (dset Nat.eqb id s (t_sys st))) id = s.
  Proof.
    unfold state_of, set_sys. cbn [t_sys]. rewrite dget_dset_same; [reflexivity|]. intros. apply Nat.eqb_eq.
  Qed.

  (** *** Parts of a round *)
  Lemma display_line z c c' x st n cs : alone (t_dbg st) n cs -> stops n id = z -> line_of z c c' x ->
    displaySyscall id c st = (TState (t_dbg st) (t_sys st) (t_ready st) (x :: t_log st) (t_seen st), Ret c').
  Proof.
    intros Ha Hz (t & Hf & (S1 & S2 & S3 & S4) & ->). pose proof Ha as (_ & _ & _ & _ & _ & F & G).
    unfold StraceModel.displaySyscall, tbind, tget, tres, the_stop. rewrite F, G, Hz, Hf. unfold tlog, tret. rewrite (pid_alone st n cs Ha). cbn [fst snd].
    assert (SyscallCall (c_func c') (c_number c) (c_result c) (c_result_text c) (c_instr_pointer c) = c') as ->.
    { destruct c'. cbn in *. congruence. }
    rewrite (line_shown_null p o), S2, S3, S4. reflexivity.
  Qed.
  Lemma entry_event a c st n cs s f : alone (t_dbg st) n cs -> is_ready st id = true -> state_of st id = s -> ss_exit s = false ->
    stops n id = a -> enters a c ->
    (~ selected o only (f_name (c_func c)) ->
       state_event f id st = (set_sys st (dset Nat.eqb id (SState None (Some (f_name (c_func c))) true) (t_sys st)), Ret None)) /\
    (forall c0, selected o only (f_name (c_func c)) -> with_arguments a c c0 ->
       state_event f id st = (set_sys st (dset Nat.eqb id (SState (Some c0) (Some (f_name (c_func c))) true) (t_sys st)), Ret (Some c0))).
  Proof.
    intros Ha Hr Hs He Hz (regs & R1 & R2). pose proof Ha as (_ & _ & _ & _ & _ & F & G).
    assert (forall s2 r, ss_event p ns repr_fs errorcode strerror K true (Some (ignoreSyscall o only)) (syscall_options o) f id a (s, t_dbg st) = ((s2, t_dbg st), r) ->
      state_event f id st = (set_sys st (dset Nat.eqb id s2 (t_sys st)), r)) as Hev.
    { intros s2 r H. unfold StraceModel.state_event, the_stop. rewrite Hr, F, G, Hz, Hs, H. destruct st. reflexivity. }
    split.
    - intros Hn. apply Hev. unfold ss_event, sbind at 1, sget. cbn [fst]. rewrite He. unfold ss_enter, sbind at 1, slift. rewrite R1.
      unfold sbind at 1. rewrite R2. unfold sbind at 1, sput. cbn [fst snd ss_exit].
      assert (ignoreSyscall o only c = true) as ->. { destruct (ignoreSyscall o only c) eqn:E; [reflexivity|]. apply ignore_selected in E. contradiction. }
      cbn [negb]. unfold sbind, sget, sret. cbn. reflexivity.
    - intros c0 Hsel (regs' & R1' & R3). rewrite R1 in R1'. injection R1' as <-. apply Hev.
      unfold ss_event, sbind at 1, sget. cbn [fst]. rewrite He. unfold ss_enter, sbind at 1, slift. rewrite R1.
      unfold sbind at 1. rewrite R2. unfold sbind at 1, sput. cbn [fst snd ss_exit].
      apply ignore_selected in Hsel. rewrite Hsel. cbn [negb]. unfold sbind, sget, sret. rewrite R3. cbn. reflexivity.
  Qed.
  Lemma enter_result opts v sp regs c c' : enter p ns repr_fs opts v sp regs c = Ok c' -> c_result c' = c_result c.
  Proof.
    unfold enter, bind. destruct (readArgumentValues p v sp regs); [|discriminate]. cbv zeta.
    match goal with |- context [match ?m with Ok _ => _ | Err _ => _ end = _ -> _] => destruct m; [|discriminate] end.
    match goal with |- context [match ?m with Ok _ => _ | Err _ => _ end = _ -> _] => destruct m; [|discriminate] end.
    match goal with |- context [match ?m with Ok _ => _ | Err _ => _ end = _ -> _] => destruct m; [|discriminate] end.
    intros [= <-]. reflexivity.
  Qed.
  Lemma new_result a c : enters a c -> c_result c = None.
  Proof. intros (regs & _ & H). unfold new_syscall, bind in H. destruct (readSyscall p regs); [|discriminate]. now injection H as <-. Qed.
  Lemma resumed st n cs s : alone (t_dbg st) n cs -> resumes K pid id n (filterSignal s) ->
    exists d, proc_syscall p K id s st = (set_dbg st d, Ret tt) /\ alone d (S n) (KSyscall id pid (filterSignal s) :: cs).
  Proof.
    intros Ha Hk. unfold proc_syscall, tdbg. rewrite (resume K p pid id (s_trace_exec o) Hl _ n cs) by assumption. eexists. split; [reflexivity|].
    apply alone_stopped, alone_call. exact Ha.
  Qed.

  (** *** The entry of a call *)
  Inductive entered (a : stop) : sstate -> list tline -> Prop :=
  | entered_hidden c : enters a c -> ~ selected o only (f_name (c_func c)) -> entered a (SState None (Some (f_name (c_func c))) true) []
  | entered_shown c c0 c1 l : enters a c -> selected o only (f_name (c_func c)) -> with_arguments a c c0 -> announced a c0 c1 l ->
      entered a (SState (Some c1) (Some (f_name (c_func c))) true) l.
  Lemma round_entry f code st n cs s log a s' l : watched st n cs s log -> ss_exit s = false ->
    reports K pid n CALL_STOP -> stops (1 + n)%nat id = a -> resumes K pid id (1 + n) 0 -> entered a s' l ->
    exists st', round (S (S f)) code st = (st', Ret code) /\ watched st' (2 + n) (KSyscall id pid 0 :: KWait pid 0 :: cs) s' (rev l ++ log).
  Proof.
    intros (Ha & Hr & Hs & Hlog) He Hk Hz Hres Hen. unfold StraceModel.round, tbind at 1, tdbg. rewrite (wait_call K p pid id (s_trace_exec o) Hpid _ n cs) by assumption.
    set (d1 := with_stopped _ id true). assert (alone d1 (S n) (KWait pid 0 :: cs)) as Ha1 by (apply alone_stopped, alone_call; exact Ha).
    unfold tbind at 1, tsee. cbn [fst snd handle_event set_dbg t_dbg t_sys t_ready t_log t_seen].
    set (st1 := TState d1 _ _ _ _). assert (state_of st1 id = s) as Hs1 by exact Hs. assert (is_ready st1 id = true) as Hr1 by exact Hr.
    unfold tbind at 1, StraceModel.handle_syscall, tbind at 1.
    destruct Hen as [c Hc Hn|c c0 c1 l Hc Hsel Hargs Hann].
    - destruct (entry_event a c st1 (S n) _ s (S (S f)) Ha1 Hr1 Hs1 He Hz Hc) as [-> _]; [|exact Hn]. unfold tbind at 1, tret at 1.
      destruct (resumed (set_sys st1 (dset Nat.eqb id (SState None (Some (f_name (c_func c))) true) (t_sys st1))) (S n) _ 0 Ha1 Hres) as (d & -> & Hd).
      eexists. split; [reflexivity|]. refine (conj Hd (conj Hr (conj _ _))); [apply state_set|exact Hlog].
    - destruct (entry_event a c st1 (S n) _ s (S (S f)) Ha1 Hr1 Hs1 He Hz Hc) as [_ Hev]. rewrite (Hev c0 Hsel Hargs).
      assert (c_result c0 = None) as ->.
      { destruct Hargs as (regs & _ & Hargs). rewrite (enter_result _ _ _ _ _ _ Hargs). eapply new_result; eauto. }
      cbn [orb]. set (st2 := set_sys st1 _). unfold StorySpec.announced in Hann. destruct (s_enter o).
      + destruct Hann as (x & Hx & ->). unfold tbind at 1, tbind at 1. rewrite (display_line a c0 c1 x st2 (S n) _ Ha1 Hz Hx).
        unfold keep_call. cbv zeta. match goal with |- context [state_of ?s3 id] => set (st3 := s3) end.
        assert (state_of st3 id = SState (Some c0) (Some (f_name (c_func c))) true) as E3. { exact (state_set st1 _). }
        rewrite E3. cbn [ss_syscall ss_name ss_exit].
        destruct (resumed (set_sys st3 (dset Nat.eqb id (SState (Some c1) (Some (f_name (c_func c))) true) (t_sys st3))) (S n) _ 0 Ha1 Hres) as (d & -> & Hd).
        eexists. split; [reflexivity|]. refine (conj Hd (conj Hr (conj _ _))); [exact (state_set st3 _)|]. cbn. now rewrite Hlog.
      + destruct Hann as (-> & ->). unfold tbind at 1, tret at 1.
        destruct (resumed st2 (S n) _ 0 Ha1 Hres) as (d & -> & Hd). eexists. split; [reflexivity|]. refine (conj Hd (conj Hr (conj _ _))); [apply state_set|exact Hlog].
  Qed.

  (** *** The return of a call *)
  Inductive returned (b z : stop) : option syscall_call -> list tline -> Prop :=
  | returned_hidden : returned b z None []
  | returned_shown c1 c2 c3 t x : exit_ p errorcode strerror (st_result b) c1 = Ok (c2, t) -> line_of z c2 c3 x -> returned b z (Some c1) [x].
  Lemma exit_result r c c' t : exit_ p errorcode strerror r c = Ok (c', t) -> exists v, c_result c' = Some v.
  Proof.
    unfold exit_, bind. destruct r; [|discriminate]. cbv zeta. destruct (result_text _ _ _ _ _) as [v x]. intros [= <- <-]. cbn. eauto.
  Qed.
  Lemma keep_cleared c st : state_of st id = cleared -> keep_call id c st = (st, Ret tt).
  Proof. intros H. unfold keep_call. cbv zeta. rewrite H. reflexivity. Qed.
  Lemma round_return f code st n cs oc name log b l : watched st n cs (SState oc (Some name) true) log -> (name = T "execve" -> s_trace_exec o = true) ->
    reports K pid n CALL_STOP -> stops (1 + n)%nat id = b -> resumes K pid id (1 + n) 0 -> returned b b oc l ->
    exists st', round (S (S f)) code st = (st', Ret code) /\ watched st' (2 + n) (KSyscall id pid 0 :: KWait pid 0 :: cs) cleared (rev l ++ log).
  Proof.
    intros (Ha & Hr & Hs & Hlog) Hname Hk Hz Hres Hret. unfold StraceModel.round, tbind at 1, tdbg. rewrite (wait_call K p pid id (s_trace_exec o) Hpid _ n cs) by assumption.
    set (d1 := with_stopped _ id true). assert (alone d1 (S n) (KWait pid 0 :: cs)) as Ha1 by (apply alone_stopped, alone_call; exact Ha).
    unfold tbind at 1, tsee. cbn [fst snd handle_event set_dbg t_dbg t_sys t_ready t_log t_seen].
    set (st1 := TState d1 _ _ _ _). assert (state_of st1 id = SState oc (Some name) true) as Hs1 by exact Hs. assert (is_ready st1 id = true) as Hr1 by exact Hr.
    unfold tbind at 1, StraceModel.handle_syscall, tbind at 1.
    pose proof Ha1 as (_ & _ & _ & _ & Et & F & G).
    assert (forall oc2, match oc, oc2 with
                        | None, None => True
                        | Some c1, Some c2 => exists t, exit_ p errorcode strerror (st_result b) c1 = Ok (c2, t)
                        | _, _ => False end ->
      state_event (S (S f)) id st1 = (set_sys st1 (dset Nat.eqb id cleared (t_sys st1)), Ret oc2)) as Hev.
    { intros oc2 H. unfold StraceModel.state_event, the_stop. rewrite Hr1. cbn [t_dbg st1]. unfold the_stop. change (t_dbg st1) with d1.
      rewrite F, G. change (1 + n)%nat with (S n) in Hz. rewrite Hz, Hs1. unfold ss_event, sbind at 1, sget. cbn [fst ss_exit]. unfold ss_exit_, sbind at 1, sget. cbn [fst ss_syscall].
      assert (true && text_eqb name (T "execve") && negb (d_trace_exec d1) = false) as En.
      { rewrite Et. cbn [andb]. destruct (text_eqb name (T "execve")) eqn:E; [|reflexivity]. apply text_eqb_eq in E. now rewrite (Hname E). }
      destruct oc as [c1|], oc2 as [c2|]; try contradiction.
      - destruct H as [t H]. unfold sbind, slift. rewrite H. unfold sput, sdbg, dget_state, sret. cbn [fst snd ss_syscall ss_name get]. rewrite En. cbn. reflexivity.
      - unfold sbind, slift, sput, sdbg, dget_state, sret. cbn [fst snd ss_syscall ss_name get]. rewrite En. cbn. reflexivity. }
    destruct Hret as [|c1 c2 c3 t x Hx Hline].
    - rewrite (Hev None I). unfold tbind at 1, tret at 1.
      destruct (resumed (set_sys st1 (dset Nat.eqb id cleared (t_sys st1))) (S n) _ 0 Ha1 Hres) as (d & -> & Hd).
      eexists. split; [reflexivity|]. refine (conj Hd (conj Hr (conj _ _))); [apply state_set|exact Hlog].
    - rewrite (Hev (Some c2)) by eauto. destruct (exit_result _ _ _ _ Hx) as [v Hv]. rewrite Hv. cbn [orb].
      set (st2 := set_sys st1 _). unfold tbind at 1, tbind at 1. rewrite (display_line b c2 c3 x st2 (S n) _ Ha1 Hz Hline).
      rewrite keep_cleared by (exact (state_set st1 _)). match goal with |- context [proc_syscall p K id 0 ?s3] => set (st3 := s3) end.
      destruct (resumed st3 (S n) _ 0 Ha1 Hres) as (d & -> & Hd). eexists. split; [reflexivity|]. refine (conj Hd (conj Hr (conj _ _))); [exact (state_set st1 _)|]. cbn. now rewrite Hlog.
  Qed.
  Lemma round_exec f code st n cs oc log b z l : watched st n cs (SState oc (Some (T "execve")) true) log -> s_trace_exec o = false ->
    reports K pid n CALL_STOP -> stops (1 + n)%nat id = b -> resumes K pid id (1 + n) 0 ->
    reports K pid (2 + n) (Stopped 5) -> stops (3 + n)%nat id = z -> resumes K pid id (3 + n) 0 -> returned b z oc l ->
    exists st', round (S (S f)) code st = (st', Ret code) /\ watched st' (4 + n) (KSyscall id pid 0 :: KWait pid 0 :: KSyscall id pid 0 :: KWait pid 0 :: cs) cleared (rev l ++ log).
  Proof.
    intros (Ha & Hr & Hs & Hlog) Hte Hk Hz Hres Hk2 Hz2 Hres2 Hret. unfold StraceModel.round, tbind at 1, tdbg. rewrite (wait_call K p pid id (s_trace_exec o) Hpid _ n cs) by assumption.
    set (d1 := with_stopped _ id true). assert (alone d1 (S n) (KWait pid 0 :: cs)) as Ha1 by (apply alone_stopped, alone_call; exact Ha).
    unfold tbind at 1, tsee. cbn [fst snd handle_event set_dbg t_dbg t_sys t_ready t_log t_seen].
    set (st1 := TState d1 _ _ _ _). assert (state_of st1 id = SState oc (Some (T "execve")) true) as Hs1 by exact Hs. assert (is_ready st1 id = true) as Hr1 by exact Hr.
    unfold tbind at 1, StraceModel.handle_syscall, tbind at 1.
    pose proof Ha1 as (_ & _ & _ & _ & Et & F & G).
    assert (exists d2, skip_exec_trap p K (S (S f)) id d1 = (d2, Ret tt) /\ alone d2 (3 + n) (KWait pid 0 :: KSyscall id pid 0 :: KWait pid 0 :: cs)) as (d2 & Hskip & Ha2).
    { unfold skip_exec_trap, dbind at 1. rewrite (resume K p pid id (s_trace_exec o) Hl _ (S n) (KWait pid 0 :: cs)) by assumption. set (d2 := with_stopped _ id false).
      assert (alone d2 (2 + n) (KSyscall id pid 0 :: KWait pid 0 :: cs)) as Ha2 by (apply alone_stopped, alone_call; exact Ha1).
      unfold dbind at 1, get_proc. pose proof Ha2 as (_ & _ & (q & Q1 & Q2 & _) & _). rewrite Q1, Q2. unfold dbind.
      rewrite (wait_trap K p pid id (s_trace_exec o) Hpid _ (2 + n) (KSyscall id pid 0 :: KWait pid 0 :: cs)) by assumption. eexists. split; [reflexivity|]. apply alone_stopped, alone_call. exact Ha2. }
    assert (forall oc2, match oc, oc2 with
                        | None, None => True
                        | Some c1, Some c2 => exists t, exit_ p errorcode strerror (st_result b) c1 = Ok (c2, t)
                        | _, _ => False end ->
      state_event (S (S f)) id st1 = (set_sys (set_dbg st1 d2) (dset Nat.eqb id cleared (t_sys st1)), Ret oc2)) as Hev.
    { intros oc2 H. unfold StraceModel.state_event, the_stop. rewrite Hr1. cbn [t_dbg st1]. unfold the_stop. change (t_dbg st1) with d1.
      rewrite F, G. change (1 + n)%nat with (S n) in Hz. rewrite Hz, Hs1. unfold ss_event, sbind at 1, sget. cbn [fst ss_exit]. unfold ss_exit_, sbind at 1, sget. cbn [fst ss_syscall].
      assert (text_eqb (T "execve") (T "execve") = true) as En by apply text_eqb_refl.
      destruct oc as [c1|], oc2 as [c2|]; try contradiction.
      - destruct H as [t H]. unfold sbind, slift. rewrite H. unfold sput, sdbg, dget_state, sret. cbn [fst snd ss_syscall ss_name get]. rewrite En, Et, Hte. cbn [andb negb]. cbn [fst snd]. rewrite Hskip. cbn. reflexivity.
      - unfold sbind, slift, sput, sdbg, dget_state, sret. cbn [fst snd ss_syscall ss_name get]. rewrite En, Et, Hte. cbn [andb negb]. cbn [fst snd]. rewrite Hskip. cbn. reflexivity. }
    destruct Hret as [|c1 c2 c3 t x Hx Hline].
    - rewrite (Hev None I). unfold tbind at 1, tret at 1.
      destruct (resumed (set_sys (set_dbg st1 d2) (dset Nat.eqb id cleared (t_sys st1))) (3 + n) _ 0 Ha2 Hres2) as (d & -> & Hd).
      eexists. split; [reflexivity|]. refine (conj Hd (conj Hr (conj _ _))); [exact (state_set (set_dbg st1 d2) _)|exact Hlog].
    - rewrite (Hev (Some c2)) by eauto. destruct (exit_result _ _ _ _ Hx) as [v Hv]. rewrite Hv. cbn [orb].
      set (st2 := set_sys (set_dbg st1 d2) _). unfold tbind at 1, tbind at 1. rewrite (display_line z c2 c3 x st2 (3 + n) _ Ha2 Hz2 Hline).
      rewrite keep_cleared by (exact (state_set (set_dbg st1 d2) _)). match goal with |- context [proc_syscall p K id 0 ?s3] => set (st3 := s3) end.
      destruct (resumed st3 (3 + n) _ 0 Ha2 Hres2) as (d & -> & Hd). eexists. split; [reflexivity|].
      refine (conj Hd (conj Hr (conj _ _))); [exact (state_set (set_dbg st1 d2) _)|]. cbn. now rewrite Hlog.
  Qed.
  Lemma round_signal f code st n cs log signum s : watched st n cs s log -> 1 <= signum < 128 -> reports K pid n (Stopped signum) ->
    k_do K (1 + n) (KDisplay id signum) = Ok tt -> resumes K pid id (2 + n) (if signum =? 5 then 0 else signum) ->
    exists st', round (S (S f)) code st = (st', Ret (128 + signum)) /\ watched st' (3 + n) (KSyscall id pid (if signum =? 5 then 0 else signum) :: KDisplay id signum :: KWait pid 0 :: cs) s log.
  Proof.
    intros (Ha & Hr & Hs & Hlog) Hsig Hk Hd Hres. unfold StraceModel.round, tbind at 1, tdbg. rewrite (wait_other K p pid id (s_trace_exec o) Hpid _ n cs signum) by assumption.
    set (d1 := with_stopped _ id true). assert (alone d1 (S n) (KWait pid 0 :: cs)) as Ha1 by (apply alone_stopped, alone_call; exact Ha).
    unfold tbind at 1, tsee. cbn [fst snd handle_event set_dbg t_dbg t_sys t_ready t_log t_seen].
    unfold tbind at 1, tdbg. cbn [t_dbg]. unfold request. pose proof Ha1 as (_ & _ & _ & _ & _ & F & G). rewrite F, G.
    change (1 + n)%nat with (S n) in Hd. rewrite Hd. cbn [set_dbg]. unfold tbind at 1.
    match goal with |- context [proc_syscall p K id signum ?s3] => set (st3 := s3) end.
    destruct (resumed st3 (2 + n) (KDisplay id signum :: KWait pid 0 :: cs) signum) as (d & -> & Hdd); [apply alone_call; exact Ha1|exact Hres|].
    eexists. split; [reflexivity|]. exact (conj Hdd (conj Hr (conj Hs Hlog))).
  Qed.
  Lemma round_execution f code st n cs log s : watched st n cs s log -> reports K pid n (TraceEvent PTRACE_EVENT_EXEC) -> resumes K pid id (1 + n) 0 ->
    exists st', round (S (S f)) code st = (st', Ret code) /\ watched st' (2 + n) (KSyscall id pid 0 :: KWait pid 0 :: cs) s (execution_line pid :: log).
  Proof.
    intros (Ha & Hr & Hs & Hlog) Hk Hres. unfold StraceModel.round, tbind at 1, tdbg. rewrite (wait_execution K p pid id (s_trace_exec o) Hl Hpid _ n cs) by assumption.
    set (d1 := add_call _ _). assert (alone d1 (S n) (KWait pid 0 :: cs)) as Ha1 by (apply alone_call; exact Ha).
    unfold tbind at 1, tsee. cbn [fst snd handle_event set_dbg t_dbg t_sys t_ready t_log t_seen].
    set (st1 := TState d1 _ _ _ _). unfold tbind at 1, handle_execution, tbind at 1, tget. unfold tbind at 1, tlog.
    rewrite (pid_alone st1 _ _ Ha1). match goal with |- context [proc_syscall p K id 0 ?s3] => set (st3 := s3) end.
    destruct (resumed st3 (S n) _ 0 Ha1 Hres) as (d & -> & Hd). eexists. split; [reflexivity|]. refine (conj Hd (conj Hr (conj Hs _))). cbn. now rewrite Hlog.
  Qed.
  Lemma round_end f code st n cs log m s : watched st n cs s log -> deadly m -> reports K pid n m ->
    match ss_syscall s with
    | Some c => if ss_exit s && negb (s_enter o) then
        forall z c' x, stops (1 + n)%nat id = z -> line_of z c c' x ->
          exists st', round (S (S f)) code st = (st', Ret (match m with Exited c => c | _ => code end)) /\ d_list (t_dbg st') = [] /\ d_calls (t_dbg st') = KWait pid 0 :: cs /\ t_log st' = end_line m :: x :: log
      else exists st', round (S (S f)) code st = (st', Ret (match m with Exited c => c | _ => code end)) /\ d_list (t_dbg st') = [] /\ d_calls (t_dbg st') = KWait pid 0 :: cs /\ t_log st' = end_line m :: log
    | None => exists st', round (S (S f)) code st = (st', Ret (match m with Exited c => c | _ => code end)) /\ d_list (t_dbg st') = [] /\ d_calls (t_dbg st') = KWait pid 0 :: cs /\ t_log st' = end_line m :: log
    end.
  Proof.
    intros (Ha & Hr & Hs & Hlog) Hm Hk. destruct (wait_end K p pid id (s_trace_exec o) Hl Hpid _ n cs m f Ha Hm Hk) as (d & Hw & D1 & D0 & D2 & (q & Q1 & Q2)).
    assert (forall P : tstate -> Prop, (exists st', handle_event p ns repr_fs errorcode strerror K stops o only (S (S f)) code true (ProcessExit id (exit_signal m) (exit_code m))
       (TState d (t_sys st) (t_ready st) (t_log st) ((true, ProcessExit id (exit_signal m) (exit_code m)) :: t_seen st)) = (st', Ret (match m with Exited c => c | _ => code end)) /\ P st') ->
      exists st', round (S (S f)) code st = (st', Ret (match m with Exited c => c | _ => code end)) /\ P st') as Hround.
    { intros P (st' & H & HP). exists st'. split; [|exact HP]. unfold StraceModel.round, tbind at 1, tdbg. rewrite Hw. unfold tbind, tsee. exact H. }
    set (st1 := TState d (t_sys st) (t_ready st) (t_log st) ((true, ProcessExit id (exit_signal m) (exit_code m)) :: t_seen st)) in *.
    assert (state_of st1 id = s) as Hs1 by exact Hs. assert (pid_of st1 id = pid) as Hp1. { unfold pid_of. cbn [t_dbg st1]. rewrite Q1. exact Q2. }
    assert (match exit_code m with Some c => c | None => code end = match m with Exited c => c | _ => code end) as Hcode by (destruct m; reflexivity).
    assert (forall log', t_log (TState (t_dbg st1) (t_sys st1) (t_ready st1) (LLine (T "*** " ++ exit_message ns pid (exit_signal m) (exit_code m) ++ T " ***") :: log') (t_seen st1)) = end_line m :: log') as Hend.
    { intros. reflexivity. }
    destruct (ss_syscall s) as [c|] eqn:Ec; [destruct (ss_exit s && negb (s_enter o)) eqn:Ee|].
    - intros z c' x Hz (t & Hf & (S1 & S2 & S3 & S4) & ->). apply Hround. cbn [handle_event]. unfold tbind at 1, handle_exit, tbind at 1, tget. cbv zeta.
      rewrite Hs1, Ec, Ee. unfold StraceModel.displaySyscall, tbind, tget, tres, the_stop. change (t_dbg st1) with d. rewrite D2.
      change (1 + n)%nat with (S n) in Hz. rewrite Hz, Hf. unfold tlog, tret. rewrite Hp1. cbn [fst snd].
      assert (SyscallCall (c_func c') (c_number c) (c_result c) (c_result_text c) (c_instr_pointer c) = c') as ->. { destruct c'. cbn in *. congruence. }
      rewrite (line_shown_null p o), S2, S3, S4. unfold keep_call. cbv zeta. cbn [state_of t_sys].
      match goal with |- context [state_of ?s2 id] => change (state_of s2 id) with (state_of st1 id) end. rewrite Hs1, Ec, Hcode.
      eexists. split; [reflexivity|]. cbn. split; [exact D1|]. split; [exact D0|]. now rewrite Hlog.
    - apply Hround. cbn [handle_event]. unfold tbind at 1, handle_exit, tbind at 1, tget. cbv zeta.
      rewrite Hs1, Ec, Ee. unfold tbind, tret, tlog. rewrite Hp1, Hcode. eexists. split; [reflexivity|]. cbn. split; [exact D1|]. split; [exact D0|]. now rewrite Hlog.
    - apply Hround. cbn [handle_event]. unfold tbind at 1, handle_exit, tbind at 1, tget. cbv zeta.
      rewrite Hs1, Ec. unfold tbind, tret, tlog. rewrite Hp1, Hcode. eexists. split; [reflexivity|]. cbn. split; [exact D1|]. split; [exact D0|]. now rewrite Hlog.
  Qed.

  (** *** The loop *)
  Lemma loop_round rounds f code st code' st1 : d_list (t_dbg st) <> [] -> round f code st = (st1, Ret code') ->
    trace_loop (S rounds) f code st = trace_loop rounds f code' st1.
  Proof. intros Hn H. cbn [StraceModel.trace_loop]. unfold tbind at 1, tget. destruct (d_list (t_dbg st)); [congruence|]. unfold tbind. rewrite H. reflexivity. Qed.
  Lemma loop_done rounds f code st : d_list (t_dbg st) = [] -> trace_loop (S rounds) f code st = (st, Ret code).
  Proof. intros H. cbn [StraceModel.trace_loop]. unfold tbind, tget. rewrite H. reflexivity. Qed.
  Lemma watched_list st n cs s log : watched st n cs s log -> d_list (t_dbg st) <> [].
  Proof. intros ((_ & H & _) & _). rewrite H. discriminate. Qed.
  Definition act_rounds (a : act) : nat := match a with ASignal _ => 1 | AExecTraced _ _ => 3 | _ => 2 end.
  Definition rounds_of (l : list act) : nat := fold_right (fun a k => (act_rounds a + k)%nat) 0%nat l.

  Lemma call_split a b z l1 l2 : call_lines a b z l1 l2 -> exists c s, enters a c /\ entered a s l1 /\ ss_name s = Some (f_name (c_func c)) /\ ss_exit s = true /\
    returned b z (ss_syscall s) l2.
  Proof.
    intros [c Hc Hn|c c0 c1 c2 c3 t l x Hc Hsel Hargs Hann Hx Hline].
    - exists c, (SState None (Some (f_name (c_func c))) true). repeat split; auto; constructor; auto.
    - exists c, (SState (Some c1) (Some (f_name (c_func c))) true). repeat split; auto; econstructor; eauto.
  Qed.
  Lemma sstate_eta s name : ss_name s = Some name -> ss_exit s = true -> s = SState (ss_syscall s) (Some name) true.
  Proof. destruct s. cbn. intros -> ->. reflexivity. Qed.

  Lemma loop_acts acts : forall after n cs st log code f l, watched st n cs cleared log -> performs K stops pid id n acts after -> story acts l ->
    exists st' n', after n' /\ watched st' n' (rev (flat_map (act_requests pid id) acts) ++ cs) cleared (rev l ++ log) /\
      forall rounds, trace_loop (rounds_of acts + rounds) (S (S f)) code st = trace_loop rounds (S (S f)) (signal_code acts code) st'.
  Proof.
    induction acts as [|act acts IH]; intros after n cs st log code f l Hw Hperf Hst.
    - inversion Hst; subst. exists st, n. cbn. auto.
    - cbn [flat_map]. rewrite rev_app_distr, <- app_assoc.
      inversion Hst as [|a b la lb acts' l2 Hc Hx Hrest|a b z la lb acts' l2 Hc Hx Hte Hrest|a b la lb acts' l2 Hc Hte Hrest|s acts' l' Hrest]; subst; cbn [performs] in Hperf.
      + destruct Hperf as (P1 & P2 & P3 & P4 & P5 & P6 & Hrec).
        destruct (call_split _ _ _ _ _ Hc) as (c & s & Hen & Hent & Hname & Hex & Hret).
        destruct (round_entry f code st n cs cleared log a s la Hw eq_refl P1 P2 P3 Hent) as (st1 & R1 & W1).
        rewrite (sstate_eta s _ Hname Hex) in W1.
        destruct (round_return f code st1 (2 + n) _ (ss_syscall s) (f_name (c_func c)) (rev la ++ log) b lb W1) as (st2 & R2 & W2); auto.
        { intros E. apply Hx. exists c. auto. }
        destruct (IH after (4 + n)%nat _ st2 (rev lb ++ rev la ++ log) code f l2 W2 Hrec Hrest) as (st' & n' & A' & W' & L').
        exists st', n'. split; [exact A'|]. split; [now rewrite !rev_app_distr, <- !app_assoc|]. intros rounds.
        change (rounds_of (ACall a b :: acts) + rounds)%nat with (S (S (rounds_of acts + rounds))).
        rewrite (loop_round _ _ _ _ _ _ (watched_list _ _ _ _ _ Hw) R1), (loop_round _ _ _ _ _ _ (watched_list _ _ _ _ _ W1) R2). apply L'.
      + destruct Hperf as (P1 & P2 & P3 & P4 & P5 & P6 & P7 & P8 & P9 & Hrec).
        destruct (call_split _ _ _ _ _ Hc) as (c & s & Hen & Hent & Hname & Hex & Hret).
        destruct (round_entry f code st n cs cleared log a s la Hw eq_refl P1 P2 P3 Hent) as (st1 & R1 & W1).
        assert (f_name (c_func c) = T "execve") as En.
        { destruct Hx as (c' & (r' & Hr1 & Hr2) & Hn'). destruct Hen as (r & Hr3 & Hr4). congruence. }
        rewrite (sstate_eta s _ Hname Hex), En in W1.
        destruct (round_exec f code st1 (2 + n) _ (ss_syscall s) (rev la ++ log) b z lb W1) as (st2 & R2 & W2); auto.
        destruct (IH after (6 + n)%nat _ st2 (rev lb ++ rev la ++ log) code f l2 W2 Hrec Hrest) as (st' & n' & A' & W' & L').
        exists st', n'. split; [exact A'|]. split; [now rewrite !rev_app_distr, <- !app_assoc|]. intros rounds.
        change (rounds_of (AExec a b z :: acts) + rounds)%nat with (S (S (rounds_of acts + rounds))).
        rewrite (loop_round _ _ _ _ _ _ (watched_list _ _ _ _ _ Hw) R1), (loop_round _ _ _ _ _ _ (watched_list _ _ _ _ _ W1) R2). apply L'.
      + destruct Hperf as (P1 & P2 & P3 & P4 & P5 & P6 & P7 & P8 & Hrec).
        destruct (call_split _ _ _ _ _ Hc) as (c & s & Hen & Hent & Hname & Hex & Hret).
        destruct (round_entry f code st n cs cleared log a s la Hw eq_refl P1 P2 P3 Hent) as (st1 & R1 & W1).
        destruct (round_execution f code st1 (2 + n) _ _ _ W1 P4 P5) as (st2 & R2 & W2). rewrite (sstate_eta s _ Hname Hex) in W2.
        destruct (round_return f code st2 (4 + n) _ (ss_syscall s) (f_name (c_func c)) _ b lb W2) as (st3 & R3 & W3); auto.
        destruct (IH after (6 + n)%nat _ st3 _ code f l2 W3 Hrec Hrest) as (st' & n' & A' & W' & L').
        exists st', n'. split; [exact A'|]. split; [rewrite rev_app_distr; cbn [rev]; rewrite rev_app_distr, <- !app_assoc; exact W'|]. intros rounds.
        change (rounds_of (AExecTraced a b :: acts) + rounds)%nat with (S (S (S (rounds_of acts + rounds)))).
        rewrite (loop_round _ _ _ _ _ _ (watched_list _ _ _ _ _ Hw) R1), (loop_round _ _ _ _ _ _ (watched_list _ _ _ _ _ W1) R2), (loop_round _ _ _ _ _ _ (watched_list _ _ _ _ _ W2) R3). apply L'.
      + destruct Hperf as ((P1 & P2) & P3 & P4 & Hrec).
        destruct (round_signal f code st n cs log s cleared Hw P1 P2 P3 P4) as (st1 & R1 & W1).
        destruct (IH after (3 + n)%nat _ st1 log (128 + s) f l W1 Hrec Hrest) as (st' & n' & A' & W' & L').
        exists st', n'. split; [exact A'|]. split; [exact W'|]. intros rounds.
        change (rounds_of (ASignal s :: acts) + rounds)%nat with (S (rounds_of acts + rounds)).
        rewrite (loop_round _ _ _ _ _ _ (watched_list _ _ _ _ _ Hw) R1). apply L'.
  Qed.
  Lemma loop_end e n cs st log code f l : watched st n cs cleared log -> ends K stops pid id e n -> end_lines e l ->
    exists st', (forall rounds, trace_loop (3 + rounds) (S (S f)) code st = (st', Ret (match meaning e with Exited c => c | _ => code end))) /\
      d_list (t_dbg st') = [] /\ d_calls (t_dbg st') = rev (end_requests pid id e) ++ cs /\ t_log st' = rev l ++ log.
  Proof.
    intros Hw He Hlines. assert (Hone : forall rounds st1 code', round (S (S f)) code st = (st1, Ret code') -> d_list (t_dbg st1) = [] ->
      trace_loop (3 + rounds) (S (S f)) code st = (st1, Ret code')).
    { intros rounds st1 code' H1 H2. cbn [Nat.add]. rewrite (loop_round _ _ _ _ _ _ (watched_list _ _ _ _ _ Hw) H1). now apply loop_done. }
    destruct e as [m|a z m]; cbn [ends] in He.
    - destruct He as (Hm & Hk). inversion Hlines; subst. destruct (round_end f code st n cs log m cleared Hw Hm Hk) as (st' & R & D & C & L).
      exists st'. repeat split; auto.
    - destruct He as (P1 & P2 & P3 & Hm & Hk & Hz). cbn [meaning].
      assert (Htwo : forall st1 cs1 s1 log1, round (S (S f)) code st = (st1, Ret code) -> watched st1 (2 + n) cs1 s1 log1 ->
        forall st2 code', round (S (S f)) code st1 = (st2, Ret code') -> d_list (t_dbg st2) = [] ->
        forall rounds, trace_loop (3 + rounds) (S (S f)) code st = (st2, Ret code')).
      { intros st1 cs1 s1 log1 R1 W1 st2 code' R2 D2 rounds. cbn [Nat.add].
        rewrite (loop_round _ _ _ _ _ _ (watched_list _ _ _ _ _ Hw) R1), (loop_round _ _ _ _ _ _ (watched_list _ _ _ _ _ W1) R2). now apply loop_done. }
      inversion Hlines as [|a' z' m' c Hc Hn E|a' z' m' c c0 c1 x Hent Hc Hsel Hargs Hline E|a' z' m' c c0 c1 x Hent Hc Hsel Hargs Hline E]; subst a' z' m' l.
      + destruct (round_entry f code st n cs cleared log a _ [] Hw eq_refl P1 P2 P3 (entered_hidden a c Hc Hn)) as (st1 & R1 & W1).
        destruct (round_end f code st1 _ _ _ m _ W1 Hm Hk) as (st2 & R2 & D2 & C2 & L2). exists st2. split; [eapply Htwo; eauto|]. auto.
      + assert (entered a (SState (Some c1) (Some (f_name (c_func c))) true) [x]) as Hen.
        { eapply entered_shown; eauto. unfold StorySpec.announced. rewrite Hent. eauto. }
        destruct (round_entry f code st n cs cleared log a _ _ Hw eq_refl P1 P2 P3 Hen) as (st1 & R1 & W1).
        pose proof (round_end f code st1 _ _ _ m _ W1 Hm Hk) as H. cbn [ss_syscall ss_exit] in H. rewrite Hent in H. cbn [negb andb] in H.
        destruct H as (st2 & R2 & D2 & C2 & L2). exists st2. split; [eapply Htwo; eauto|]. auto.
      + assert (entered a (SState (Some c0) (Some (f_name (c_func c))) true) []) as Hen.
        { eapply entered_shown; eauto. unfold StorySpec.announced. rewrite Hent. auto. }
        destruct (round_entry f code st n cs cleared log a _ _ Hw eq_refl P1 P2 P3 Hen) as (st1 & R1 & W1).
        pose proof (round_end f code st1 _ _ _ m _ W1 Hm Hk) as H. cbn [ss_syscall ss_exit] in H. rewrite Hent in H. cbn [negb andb] in H.
        destruct (H z c1 x Hz Hline) as (st2 & R2 & D2 & C2 & L2). exists st2. split; [eapply Htwo; eauto|]. auto.
  Qed.
  Lemma whole_loop acts e n cs st log code f l le rounds : watched st n cs cleared log -> performs K stops pid id n acts (ends K stops pid id e) ->
    story acts l -> end_lines e le -> (rounds_of acts + 3 <= rounds)%nat ->
    exists st', trace_loop rounds (S (S f)) code st = (st', Ret (match meaning e with Exited c => c | _ => signal_code acts code end)) /\
      d_list (t_dbg st') = [] /\ d_calls (t_dbg st') = rev (flat_map (act_requests pid id) acts ++ end_requests pid id e) ++ cs /\
      t_log st' = rev (l ++ le) ++ log.
  Proof.
    intros Hw Hp Hs He Hr. destruct (loop_acts acts _ n cs st log code f l Hw Hp Hs) as (st1 & n1 & A1 & W1 & L1).
    destruct (loop_end e n1 _ st1 _ (signal_code acts code) f le W1 A1 He) as (st2 & L2 & D2 & C2 & G2).
    exists st2. split; [|split; [exact D2|split]].
    - replace rounds with (rounds_of acts + (3 + (rounds - rounds_of acts - 3)))%nat by lia. rewrite L1. apply L2.
    - rewrite C2, rev_app_distr, <- app_assoc. reflexivity.
    - rewrite G2, rev_app_distr, app_assoc. reflexivity.
  Qed.
End Strace.
