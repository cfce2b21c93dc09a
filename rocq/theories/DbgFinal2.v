From Coq Require Import ZArith List Ascii String Bool Lia.
From Verif Require Import PyBase PyFacts Platform DbgModel DbgSpec DbgProofs DbgProofs2 DbgProofs3 DbgProofs4 DbgProofs5 DbgFinal.
Import ListNotations.
Open Scope Z_scope.

Section Facts.
  Context (K : dkernel) (p : platform).

  (** *** C30 *)
  Lemma unknown_pid f pid b st : pid <> 0 -> dget Z.eqb pid (d_dict st) = None ->
    waitProcessEvent K p (S f) (Some pid) b st = (st, Raise (XErr EDebuggerError)).
  Proof.
    intros Hp Hd. apply Z.eqb_neq in Hp. unfold waitProcessEvent. cbn [wait wait_event_query]. unfold wait_event_pid_, waitpid_, dbind at 1.
    rewrite Hp. cbn [negb]. unfold dbind at 1, dget_state. rewrite Hd. reflexivity.
  Qed.
  Lemma status_about f id status st st' ev : running_linux p = true -> processStatus K p f id status st = (st', Ret ev) -> event_about st' id ev.
  Proof.
    intros Hl H. unfold processStatus, processStatus_ in H. destruct (WIFEXITED status).
    { unfold processExited_, dbind at 1 in H. destruct (get_proc id st) as [s [q|x]]; [|discriminate]. unfold running_bsd in H. rewrite Hl in H. cbn [negb andb] in H.
      unfold dbind, dret in H. destruct (notRunning K id s) as [s' [u|x]]; [|discriminate]. injection H as <- <-. reflexivity. }
    destruct (WIFSIGNALED status).
    { unfold processKilled, dbind, dret in H. destruct (notRunning K id st) as [s' [u|x]]; [|discriminate]. injection H as <- <-. reflexivity. }
    destruct (negb (WIFSTOPPED status)); [discriminate|].
    destruct (_ && _).
    - unfold ptraceEvent_ in H. destruct (negb _); [discriminate|]. destruct (_ || _).
      + unfold dbind at 1 in H. destruct (get_proc id st) as [s [q|x]]; [|discriminate]. unfold dbind at 1 in H.
        destruct (ptrace_geteventmsg K id (pr_pid q) s) as [s1 [np|x]]; [|discriminate]. unfold dbind in H. fold (addProcess K p f) in H.
        destruct (addProcess K p f np true (Some id) _ s1) as [s2 [c|x]] eqn:Ea; [|discriminate]. injection H as <- <-.
        destruct (add_returns _ _ _ _ _ _ _ _ _ _ Ea) as (_ & q' & A & _ & _ & _ & B). exists q'. auto.
      + destruct (_ =? _); [|discriminate]. injection H as <- <-. reflexivity.
    - injection H as <- <-. reflexivity.
  Qed.
  Lemma own_event f pid b st st' id ev : running_linux p = true -> reachable_plain K p st -> pid <> 0 ->
    dget Z.eqb pid (d_dict st) = Some id ->
    waitProcessEvent K p f (Some pid) b st = (st', Ret (Some ev)) -> event_about st' id ev.
  Proof.
    intros Hl Hr Hp Hd H. unfold waitProcessEvent in H. cbn [wait_event_query] in H. destruct f as [|f]; [discriminate|].
    pose proof (reachable_inv _ _ _ Hr) as I. destruct (ri_dict _ I pid id) as (q & Hq & _); [apply (dget_In Z.eqb Z.eqb_eq); exact Hd|].
    rewrite (wait_pid_eq K p f pid b st id q Hl Hp Hd Hq) in H. cbn zeta in H.
    destruct (k_wait K _ _ _) as [[pid' status]|e].
    - destruct (pid' =? pid).
      + fold (processStatus K p f) in H. destruct (processStatus K p f id status _) as [s2 [ev'|x]] eqn:E; [|discriminate]. injection H as <- <-.
        eapply status_about; eauto.
      + destruct (_ || _); discriminate.
    - destruct e; try discriminate. destruct (_ =? _); [|discriminate]. injection H as <- <-. reflexivity.
  Qed.
  Lemma wait_equation f pid b st id q : running_linux p = true -> pid <> 0 -> dget Z.eqb pid (d_dict st) = Some id -> nth_error (d_procs st) id = Some q ->
    let flags := (if b : bool then 0 else 1) in
    let flags := if pr_is_thread q then Z.lor flags 0x40000000 else flags in
    let st1 := add_call st (KWait pid flags) in
    match k_wait K (List.length (d_calls st)) pid flags with
    | Ok (pid', status) =>
        waitProcessEvent K p (S f) (Some pid) b st =
          if pid' =? pid then
            match processStatus K p f id status st1 with (st2, Ret ev) => (st2, Ret (Some ev)) | (st2, Raise x) => (st2, Raise x) end
          else if b || negb (pid' =? 0) then (st1, Raise (XErr EDebuggerError))
          else (st1, Ret None)
    | Err (EOSError 10) => exists st2, waitProcessEvent K p (S f) (Some pid) b st = (st2, Ret (Some (ProcessExit id None None))) /\ left_debugger st1 id st2
    | Err e => waitProcessEvent K p (S f) (Some pid) b st = (st1, Raise (XErr e))
    end.
  Proof.
    intros Hl Hp Hd Hq flags0 flags st1. unfold waitProcessEvent. cbn [wait_event_query].
    pose proof (wait_pid_eq K p f pid b st id q Hl Hp Hd Hq) as Hw. cbn zeta in Hw.
    assert (wait_flags p q b = flags) as Hf.
    { unfold wait_flags, flags, flags0, thread_trace_flags. rewrite Hl. reflexivity. }
    rewrite Hf in Hw. fold st1 in Hw. destruct (k_wait K _ pid flags) as [[pid' status]|e]; [exact Hw|].
    destruct e; try exact Hw. match goal with |- context [EOSError ?m] => rename m into n end.
    destruct (n =? ECHILD) eqn:En.
    - apply Z.eqb_eq in En. subst n. cbn [ECHILD]. unfold ECHILD. exists (gone st1 id q). split; [exact Hw|]. apply gone_left. exact Hq.
    - unfold ECHILD in En. apply Z.eqb_neq in En. destruct n as [|n|n]; try exact Hw.
      do 4 (destruct n as [n|n|]; try exact Hw). now exfalso.
  Qed.
  Lemma wait_registered f q st : reachable_plain K p st -> exists new, made st (fst (wait K p f q st)) new /\
    forall pid flags, In (KWait pid flags) new -> pid = -1 \/ exists id, has_pid (fst (wait K p f q st)) id pid.
  Proof.
    intros Hr. pose proof (reachable_inv _ _ _ Hr) as I0.
    assert (forall P s1 s2, ticks P s1 s2 -> reg_inv s1 -> (forall s c, P s c -> ordinary true s c) -> exists new, made s1 s2 new /\
      forall pid flags, In (KWait pid flags) new -> pid = -1 \/ exists id, has_pid s2 id pid) as H.
    { intros P s1 s2 Ht I1 HP. induction Ht as [s|s1 s2 s3 H1 H2 IH]; [exists []; split; [reflexivity|intros ? ? []]|].
      destruct (IH (tick_inv _ _ _ H1 I1)) as (b & B1 & B2).
      assert (exists a, made s1 s2 a /\ forall pid flags, In (KWait pid flags) a -> pid = -1 \/ exists id, has_pid s3 id pid) as (a & A1 & A2).
      { destruct H1; try (exists []; split; [reflexivity|intros ? ? []]).
        - exists [c]. split; [reflexivity|]. intros pid flags [->|[]]. specialize (HP _ _ H). cbn in HP. destruct HP as [->|HP]; [now left|right].
          unfold dmem in HP. destruct (dget Z.eqb pid (d_dict st0)) as [id|] eqn:Ed; [|discriminate].
          apply (dget_In Z.eqb Z.eqb_eq) in Ed. destruct (ri_dict _ I1 pid id Ed) as (x & X1 & X2).
          destruct (ticks_keep _ _ _ _ _ H2 X1) as (y & Y1 & (Y2 & _)). exists id, y. split; [exact Y1|congruence].
        - eexists [_]. split; [reflexivity|]. intros ? ? [E|[]]. discriminate.
        - eexists [_]. split; [reflexivity|]. intros ? ? [E|[]]. discriminate. }
      exists (a ++ b). split; [eapply made_trans; eauto|]. intros pid flags Hin. apply in_app_iff in Hin as [Hin|Hin]; eauto. }
    eapply H; [apply (within_wait K p true); auto|exact I0|auto].
  Qed.

  (** *** C31 *)
  Lemma quiet_wait f st pid id q status : running_linux p = true -> pid <> 0 -> dget Z.eqb pid (d_dict st) = Some id -> nth_error (d_procs st) id = Some q ->
    let flags := if pr_is_thread q then Z.lor WNOHANG (thread_trace_flags p) else WNOHANG in
    k_wait K (List.length (d_calls st)) pid flags = Ok (0, status) ->
    wait K p (S f) (QPid pid false) st = (add_call st (KWait pid flags), Ret None).
  Proof.
    intros Hl Hp Hd Hq flags Hk. rewrite (wait_pid_eq K p f pid false st id q Hl Hp Hd Hq). cbn zeta. change (wait_flags p q false) with flags. rewrite Hk.
    apply Z.eqb_neq in Hp. rewrite (Z.eqb_sym 0), Hp. reflexivity.
  Qed.
  Lemma quiet_poll f pids : running_linux p = true -> forall st st1 rest, quiet K p st pids st1 -> ~ In 0 pids ->
    poll (wait K p (S f)) (pids ++ rest) st = poll (wait K p (S f)) rest st1.
  Proof.
    intros Hl. induction pids as [|pid pids IH]; intros st st1 rest Hqu H0; inversion Hqu; subst; [reflexivity|].
    cbn [poll app]. unfold dbind. assert (pid <> 0) as Hp by (intros ->; apply H0; now left).
    match goal with A : dget _ _ _ = _, B : nth_error _ _ = _, C : k_wait _ _ _ _ = _ |- _ => rewrite (quiet_wait f st pid _ _ _ Hl Hp A B C) end.
    eapply IH; [eassumption|]. intros H. apply H0. now right.
  Qed.
  Lemma any_first f pause b st pids pid rest st1 : running_linux p = true ->
    map fst (d_dict st) = pids ++ pid :: rest -> (1 < List.length (d_dict st))%nat -> ~ In 0 pids -> quiet K p st pids st1 ->
    (forall st2, waitProcessEvent K p (S f) (Some pid) false st1 <> (st2, Ret None)) ->
    wait K p (S (S f)) (QAny pause b) st = waitProcessEvent K p (S f) (Some pid) false st1.
  Proof.
    intros Hl Hk Hlen H0 Hqu Hne. change (wait K p (S (S f)) (QAny pause b) st) with (wait_any_ K (wait K p (S f)) pause b st).
    unfold wait_any_, dbind at 1, dget_state. destruct (map fst (d_dict st)) as [|x [|y l]] eqn:El.
    - destruct pids; discriminate.
    - assert (List.length (map fst (d_dict st)) = 1%nat) as Hx by (rewrite El; reflexivity). rewrite map_length in Hx. lia.
    - rewrite Hk. unfold dbind at 1. rewrite (quiet_poll f pids Hl st st1 (pid :: rest) Hqu H0). cbn [poll]. unfold dbind at 1.
      unfold waitProcessEvent in *. cbn [wait_event_query] in *. destruct (wait K p (S f) (QPid pid false) st1) as [s2 [[ev|]|x0]]; [reflexivity| |reflexivity].
      now destruct (Hne s2).
  Qed.
  Lemma any_none f pause b st st1 : running_linux p = true -> (1 < List.length (d_dict st))%nat -> ~ In 0 (map fst (d_dict st)) ->
    quiet K p st (map fst (d_dict st)) st1 ->
    wait K p (S (S f)) (QAny pause b) st =
      if b then
        let st2 := add_call st1 (KSleep (Z.min (pause * 2) 500)) in
        match k_do K (List.length (d_calls st1)) (KSleep (Z.min (pause * 2) 500)) with
        | Ok _ => wait K p (S f) (QAny (Z.min (pause * 2) 500) b) st2
        | Err e => (st2, Raise (XErr e))
        end
      else (st1, Ret None).
  Proof.
    intros Hl Hlen H0 Hqu. change (wait K p (S (S f)) (QAny pause b) st) with (wait_any_ K (wait K p (S f)) pause b st).
    unfold wait_any_, dbind at 1, dget_state. destruct (map fst (d_dict st)) as [|x [|y l]] eqn:El.
    - assert (List.length (map fst (d_dict st)) = 0%nat) as Hx by (rewrite El; reflexivity). rewrite map_length in Hx. lia.
    - assert (List.length (map fst (d_dict st)) = 1%nat) as Hx by (rewrite El; reflexivity). rewrite map_length in Hx. lia.
    - unfold dbind at 1. rewrite <- (app_nil_r (x :: y :: l)). rewrite (quiet_poll f (x :: y :: l) Hl st st1 [] Hqu H0). cbn [poll dret].
      destruct b; [|reflexivity]. cbn [negb]. unfold dbind, request. cbn zeta. destruct (k_do K _ _); reflexivity.
  Qed.
  Lemma any_one f pause b st pid id : d_dict st = [(pid, id)] ->
    wait K p (S f) (QAny pause b) st = waitProcessEvent K p f (Some pid) b st.
  Proof. intros H. cbn [wait]. unfold wait_any_, dbind, dget_state. rewrite H. reflexivity. Qed.
  Lemma any_empty f pause b st : d_dict st = [] -> wait K p (S f) (QAny pause b) st = (st, Raise (XErr EIndexError)).
  Proof. intros H. cbn [wait]. unfold wait_any_, dbind, dget_state. rewrite H. reflexivity. Qed.

  (** *** C32 *)
  Lemma blocking_some f : forall q st st', match q with QPid _ b | QAny _ b => b = true | QExit _ => False end ->
    wait K p f q st <> (st', Ret None).
  Proof.
    induction f as [|f IH]; intros q st st' Hq; [discriminate|]. destruct q as [pid b|pause b|id]; [subst b|subst b|destruct Hq]; cbn [wait].
    - unfold wait_event_pid_. destruct (waitpid_ K p pid true st) as [s [[pid' status]|[e|ev]]]; try discriminate.
      + cbn [negb andb]. destruct (dget Z.eqb pid' (d_dict s)) as [id|]; [|now apply IH].
        unfold dbind. destruct (processStatus_ _ _ _ _ _ _) as [s2 [ev|x]]; discriminate.
      + destruct e; try discriminate. destruct (_ =? _); [|discriminate]. destruct (dget Z.eqb pid (d_dict s)); [|discriminate].
        unfold dbind. destruct (processTerminated _ _ _) as [s2 [ev|x]]; discriminate.
    - unfold wait_any_, dbind at 1, dget_state. destruct (map fst (d_dict st)) as [|x [|y l]]; [discriminate|now apply IH|].
      unfold dbind at 1. destruct (poll _ _ _) as [s [[ev|]|x0]]; try discriminate. cbn [negb]. unfold dbind, request.
      destruct (k_do K _ _); [now apply IH|discriminate].
  Qed.
  Lemma signals_spec f signals pid st :
    waitSignals K p f signals pid st =
      match waitProcessEvent K p f pid true st with
      | (st', Ret (Some (ProcessSignal s id))) =>
          if match signals with [] => true | _ => if in_dec Z.eq_dec s signals then true else false end
          then (st', Ret (ProcessSignal s id)) else (st', Raise (XEvent (ProcessSignal s id)))
      | (st', Ret (Some ev)) => (st', Raise (XEvent ev))
      | (st', Ret None) => (st', Raise (XErr ETypeError))
      | (st', Raise x) => (st', Raise x)
      end.
  Proof.
    unfold waitSignals, waitSignals_, waitProcessEvent, dbind. destruct (wait K p f (wait_event_query pid true) st) as [s [[ev|]|x]]; try reflexivity.
    destruct ev; try reflexivity. destruct signals as [|z l]; [reflexivity|]. rewrite orb_false_r.
    assert (existsb (Z.eqb signum) (z :: l) = if in_dec Z.eq_dec signum (z :: l) then true else false) as ->.
    { destruct (in_dec Z.eq_dec signum (z :: l)) as [Hi|Hi].
      - apply existsb_exists. exists signum. split; [exact Hi|apply Z.eqb_refl].
      - apply not_true_iff_false. intros H. apply existsb_exists in H as (x & Hx & E). apply Z.eqb_eq in E. subst x. contradiction. }
    destruct (in_dec _ _ _); reflexivity.
  Qed.
  Lemma signals_returns f signals pid st st' ev : waitSignals K p f signals pid st = (st', Ret ev) <->
    waitProcessEvent K p f pid true st = (st', Ret (Some ev)) /\ exists s id, ev = ProcessSignal s id /\ (signals = [] \/ In s signals).
  Proof.
    rewrite signals_spec. destruct (waitProcessEvent K p f pid true st) as [s0 [[e|]|x]].
    - destruct e as [i s c|i|i|s i]; try (split; [discriminate|intros [[= <- <-] (? & ? & E & _)]; discriminate]).
      split.
      + destruct signals as [|z l]; [intros [= <- <-]; split; [reflexivity|exists s, i; auto]|].
        destruct (in_dec Z.eq_dec s (z :: l)) as [Hi|Hi]; [|discriminate]. intros [= <- <-]. split; [reflexivity|exists s, i; auto].
      + intros [[= <- <-] (s' & i' & [= <- <-] & Hs)]. destruct signals as [|z l]; [reflexivity|].
        destruct (in_dec Z.eq_dec s (z :: l)) as [Hi|Hi]; [reflexivity|]. destruct Hs; [discriminate|contradiction].
    - split; [discriminate|intros [H _]; discriminate].
    - split; [discriminate|intros [H _]; discriminate].
  Qed.
  Lemma signals_raises f signals pid st st' ev : waitProcessEvent K p f pid true st = (st', Ret (Some ev)) ->
    (forall s id, ev = ProcessSignal s id -> signals <> [] /\ ~ In s signals) ->
    waitSignals K p f signals pid st = (st', Raise (XEvent ev)).
  Proof.
    intros H Hev. rewrite signals_spec, H. destruct ev; try reflexivity. destruct (Hev signum process eq_refl) as [H1 H2].
    destruct signals as [|z l]; [congruence|]. destruct (in_dec _ _ _); [contradiction|reflexivity].
  Qed.
  Lemma signals_no_none f pid st st' : waitProcessEvent K p f pid true st <> (st', Ret None).
  Proof. unfold waitProcessEvent. destruct pid; apply blocking_some; reflexivity. Qed.
  Lemma syscall_signal f process st : (forall id, process = Some id -> nth_error (d_procs st) id <> None) ->
    waitSyscall K p f process st =
      waitSignals K p f [if d_sysgood st then 133 else 5]
        (match process with Some id => option_map pr_pid (nth_error (d_procs st) id) | None => None end) st.
  Proof.
    intros H. unfold waitSyscall, dbind at 1, dget_state. replace (if d_sysgood st then Z.lor SIGTRAP 128 else SIGTRAP) with (if d_sysgood st then 133 else 5) by (destruct (d_sysgood st); reflexivity).
    destruct process as [id|]; [|reflexivity]. specialize (H id eq_refl). unfold dbind, get_proc. destruct (nth_error (d_procs st) id); [reflexivity|congruence].
  Qed.

  (** *** C33 *)
  Lemma cont_spec id s st q : nth_error (d_procs st) id = Some q ->
    let s' := if s =? 5 then 0 else s in
    cont K id s st =
      let st1 := add_call st (KCont id (pr_pid q) s') in
      match k_do K (List.length (d_calls st)) (KCont id (pr_pid q) s') with
      | Ok _ => (with_stopped st1 id false, Ret tt)
      | Err e => (st1, Raise (XErr e))
      end.
  Proof.
    intros Hq s'. unfold cont, dbind. rewrite (get_proc_eq st id q Hq). unfold request, filterSignal, SIGTRAP. fold s'. cbn zeta.
    destruct (k_do K _ _); reflexivity.
  Qed.
  Lemma syscall_spec id s st q : running_openbsd p = false -> nth_error (d_procs st) id = Some q ->
    let s' := if s =? 5 then 0 else s in
    syscall K p id s st =
      let st1 := add_call st (KSyscall id (pr_pid q) s') in
      match k_do K (List.length (d_calls st)) (KSyscall id (pr_pid q) s') with
      | Ok _ => (with_stopped st1 id false, Ret tt)
      | Err e => (st1, Raise (XErr e))
      end.
  Proof.
    intros Hb Hq s'. unfold syscall, dbind. rewrite (get_proc_eq st id q Hq), Hb. unfold request, filterSignal, SIGTRAP. fold s'. cbn zeta.
    destruct (k_do K _ _); reflexivity.
  Qed.
  Lemma detach_once st id : reachable K p st -> (detaches id (d_calls st) <= 1)%nat.
  Proof. intros H. apply (di_det _ (reachable_det K p st H) id). Qed.
  Lemma never_sigtrap st c : reachable K p st -> In c (d_calls st) ->
    match c with KCont _ _ s | KSyscall _ _ s => s <> 5 | _ => True end.
  Proof. intros Hr Hc. exact (di_trap _ (reachable_det K p st Hr) c Hc). Qed.

  (** *** C63 *)
  Definition no_kill (st : dstate) (c : kcall) : Prop := is_kill c = false.
  Lemma within_nokill_wait f q : within no_kill (wait K p f q).
  Proof. intros st. eapply ticks_mono; [|apply (within_wait K p true); auto]. intros s c Hc. destruct c; cbn in Hc; try reflexivity. destruct Hc. Qed.
  Lemma terminate_first f id w st q : nth_error (d_procs st) id = Some q -> pr_running q = true -> pr_was_attached q = true ->
    exists rest, made st (fst (terminate K p f id w st))
      ((if pr_is_stopped q then KCont id (pr_pid q) 9 else KKill id (pr_pid q) 9) :: rest) /\ forall c, In c rest -> is_kill c = false.
  Proof.
    intros Hq Hr Hw. unfold terminate, dbind at 1. rewrite (get_proc_eq st id q Hq), Hr, Hw. cbn [negb orb].
    set (c0 := if pr_is_stopped q then KCont id (pr_pid q) 9 else KKill id (pr_pid q) 9).
    unfold dbind at 1. set (m := if pr_is_stopped q then cont K id SIGKILL else kill K id SIGKILL).
    assert (made st (fst (m st)) [c0] /\ nth_error (d_procs (fst (m st))) id <> None) as [Hm Hn].
    { unfold m, c0. destruct (pr_is_stopped q).
      - unfold cont, dbind. rewrite (get_proc_eq st id q Hq). unfold request. destruct (k_do K _ _); cbn; (split; [reflexivity|]); rewrite ?nth_upd_nth, ?Nat.eqb_refl, Hq; discriminate.
      - unfold kill, dbind. rewrite (get_proc_eq st id q Hq). cbn. split; [reflexivity|congruence]. }
    assert (forall B (g : D B) s o, m st = (s, o) -> within no_kill g -> exists rest, made st (fst (g s)) (c0 :: rest) /\ forall c, In c rest -> is_kill c = false) as Hgo.
    { intros B g s o Es Hg. rewrite Es in Hm. cbn in Hm. destruct (ticks_calls _ _ _ (Hg s)) as (new & H1 & H2). exists new.
      split; [exact (made_trans _ _ _ _ _ Hm H1)|]. intros c Hc. destruct (H2 c Hc) as [(s' & A)|(i & pid & ->)]; [exact A|reflexivity]. }
    destruct (m st) as [s [u|[e|ev]]] eqn:Em.
    - apply (Hgo _ (if negb w then dret false else dbind (waitExit K p f id) (fun _ => dbind (notRunning K id) (fun _ => dret true))) s (Ret u) eq_refl).
      destruct (negb w); [win|]. apply within_bind; [unfold waitExit; apply within_bind; [apply within_nokill_wait|win]|]. intros _. apply within_bind; [apply within_notRunning|win].
    - destruct (ptrace_errno e) as [[n|]|].
      + destruct (n =? ESRCH).
        * apply (Hgo _ (dbind (notRunning K id) (fun _ => dret true)) s (Raise (XErr e)) eq_refl). apply within_bind; [apply within_notRunning|win].
        * exact (Hgo _ (@draise bool e) s _ eq_refl (within_raise _ _)).
      + exact (Hgo _ (@draise bool e) s _ eq_refl (within_raise _ _)).
      + exact (Hgo _ (@draise bool e) s _ eq_refl (within_raise _ _)).
    - exact (Hgo _ (@dthrow bool ev) s _ eq_refl (within_throw _ _)).
  Qed.
  Lemma notRunning_dead id st st' : notRunning K id st = (st', Ret tt) -> ~ alive st' id.
  Proof.
    intros H. destruct (nth_error (d_procs st) id) as [q|] eqn:Eq.
    - rewrite (notRunning_eq K st id q Eq) in H. injection H as <-. now apply gone_left.
    - unfold notRunning, dbind at 1, upd_proc in H. unfold detach, dbind at 1, get_proc in H. cbn [d_procs set_procs] in H.
      rewrite nth_upd_nth, Nat.eqb_refl, Eq in H. discriminate.
  Qed.
  Lemma terminate_dead f id w st st' : started st id -> terminate K p f id w st = (st', Ret true) -> ~ alive st' id.
  Proof.
    intros (q & Hq & Hw) H. unfold terminate, dbind at 1 in H. rewrite (get_proc_eq st id q Hq), Hw in H. rewrite orb_false_r in H.
    destruct (pr_running q) eqn:Er; cbn [negb] in H.
    - unfold dbind at 1 in H. destruct ((if pr_is_stopped q then cont K id SIGKILL else kill K id SIGKILL) st) as [s [u|[e|ev]]]; [| |discriminate].
      + destruct (negb w); [discriminate|]. unfold dbind at 1 in H. destruct (waitExit K p f id s) as [s1 [u'|x]]; [|discriminate].
        unfold dbind in H. destruct (notRunning K id s1) as [s2 [[]|x]] eqn:En; [|discriminate]. injection H as <-. eapply notRunning_dead; eauto.
      + destruct (ptrace_errno e) as [[n|]|]; try discriminate. destruct (n =? ESRCH); [|discriminate].
        unfold dbind in H. destruct (notRunning K id s) as [s2 [[]|x]] eqn:En; [|discriminate]. injection H as <-. eapply notRunning_dead; eauto.
    - injection H as <-. intros (q' & A & B). congruence.
  Qed.

  (** *** C64 *)
  Lemma wait_exit_rel f id st st' r : wait K p f (QExit id) st = (st', Ret r) ->
    forall q, nth_error (d_procs st) id = Some q -> waits_exit K p id (pr_pid q) st st'.
  Proof.
    revert st. induction f as [|f IH]; intros st H q Hq; [discriminate|]. cbn [wait] in H. unfold waitExit_, dbind at 1 in H.
    rewrite (get_proc_eq st id q Hq) in H. unfold dbind at 1 in H. destruct (wait K p f (QPid (pr_pid q) true) st) as [s1 [[ev|]|x]] eqn:Ew; try discriminate.
    destruct ev as [who s c| | |signum who]; try discriminate.
    - injection H as <- _. eapply we_exit; eauto.
    - unfold dbind at 1 in H. destruct (ticks_keep _ _ _ _ _ (within_any_wait K p f (QPid (pr_pid q) true) st) Hq) as (q1 & Hq1 & (I1 & _)).
      rewrite Ew in Hq1. cbn in Hq1. rewrite (cont_spec id _ s1 q1 Hq1) in H. cbn zeta in H.
      destruct (k_do K _ _); [|discriminate].
      assert ((if (if (signum =? SIGTRAP) || (signum =? SIGSTOP) then 0 else signum) =? 5 then 0 else if (signum =? SIGTRAP) || (signum =? SIGSTOP) then 0 else signum) = redelivered signum) as Er.
      { unfold redelivered, SIGTRAP, SIGSTOP. destruct (Z.eqb_spec signum 5), (Z.eqb_spec signum 19); cbn; try reflexivity. destruct (Z.eqb_spec signum 5); [contradiction|reflexivity]. }
      rewrite Er in H.
      eapply we_signal; [exact Ew|reflexivity|]. rewrite <- I1.
      eapply (IH _ H (set_stopped false q1)). cbn. rewrite nth_upd_nth, Nat.eqb_refl, Hq1. reflexivity.
  Qed.
  Lemma waitExit_rel f id st st' : waitExit K p f id st = (st', Ret tt) ->
    exists q, nth_error (d_procs st) id = Some q /\ waits_exit K p id (pr_pid q) st st'.
  Proof.
    unfold waitExit, dbind. destruct (wait K p f (QExit id) st) as [s [r|x]] eqn:E; [|discriminate]. intros [= <-].
    destruct (nth_error (d_procs st) id) as [q|] eqn:Eq.
    - exists q. split; [reflexivity|]. eapply wait_exit_rel; eauto.
    - destruct f; [discriminate|]. cbn [wait] in E. unfold waitExit_, dbind, get_proc in E. rewrite Eq in E. discriminate.
  Qed.
  Lemma exit_resumes f id st : running_linux p = true -> exists new, made st (fst (wait K p f (QExit id) st)) new /\
    forall c, In c new -> match c with KCont i _ s => i = id /\ s <> 5 /\ s <> 19 | KSyscall _ _ _ | KStep _ _ | KKill _ _ _ => False | _ => True end.
  Proof.
    intros Hl.
    destruct (ticks_calls _ _ _ (within_exit_only K p f id Hl st)) as (new & H1 & H2).
    destruct (ticks_calls _ _ _ (within_wait K p true (fun _ => eq_refl) f (QExit id) (fun _ => eq_refl) st)) as (new' & H1' & H2').
    assert (new' = new) as -> by (unfold made in *; rewrite H1 in H1'; apply app_inv_tail in H1'; rewrite <- (rev_involutive new), H1', rev_involutive; reflexivity).
    exists new. split; [exact H1|]. intros c Hc. specialize (H2 c Hc). specialize (H2' c Hc).
    destruct c; auto.
    - destruct H2 as [(s & A)|(? & ? & ?)]; [|discriminate]. destruct H2' as [(s' & A')|(? & ? & ?)]; [|discriminate].
      cbn in A'. split; [apply (A id0); cbn; apply Nat.eqb_refl|tauto].
    - destruct H2' as [(s' & A')|(? & ? & ?)]; [exact A'|discriminate].
    - destruct H2' as [(s' & A')|(? & ? & ?)]; [exact A'|discriminate].
    - destruct H2' as [(s' & A')|(? & ? & ?)]; [exact A'|discriminate].
  Qed.

  (** *** C23, exit status on every platform *)
  Lemma status_exit_any f id status st st' ev : status mod 128 = 0 -> processStatus K p f id status st = (st', Ret ev) ->
    ev = ProcessExit id None (Some ((status / 256) mod 256)) /\ ~ alive st' id.
  Proof.
    intros Hs H. unfold processStatus, processStatus_, WIFEXITED in H. rewrite termsig_mod, Hs in H. cbn [Z.eqb] in H.
    unfold processExited_, dbind at 1 in H. destruct (get_proc id st) as [s [q|x]]; [|discriminate]. unfold dbind at 1 in H.
    match type of H with context [match ?m s with _ => _ end] => destruct (m s) as [s1 [u|x]]; [|discriminate] end.
    unfold dbind, dret in H. destruct (notRunning K id s1) as [s2 [[]|x]] eqn:En; [|discriminate]. injection H as <- <-.
    rewrite exitstatus_div. split; [reflexivity|]. eapply notRunning_dead; eauto.
  Qed.
End Facts.

(** ** Concrete kernels *)
(** Accepts everything; the n-th request, if it is a wait, is answered by the n-th status (0 means "nothing to report"),
    and by ECHILD when there is none. *)
Definition scripted (statuses : list Z) : dkernel :=
  DKernel (fun n pid _ => match nth_error statuses n with
                          | Some 0 => Ok (0, 0)
                          | Some s => Ok (pid, s)
                          | None => Err (EOSError 10) end)
          (fun _ _ => Ok 200) (fun _ _ => Ok tt).
(** Refuses the requests recognized by [bad]. *)
Definition refusing (bad : kcall -> bool) (statuses : list Z) : dkernel :=
  DKernel (k_wait (scripted statuses)) (fun _ _ => Ok 200)
          (fun _ c => if bad c then Err (EPtraceError (Some 3)) else Ok tt).
Definition stop_by (signum : Z) : Z := encode (Stopped signum).
Definition run (K : dkernel) (l : list op) : dstate := fold_left (fun s o => run_op K linux_x86_64 o s) l (new_debugger linux_x86_64).
Lemma run_reachable K l : reachable K linux_x86_64 (run K l).
Proof. exists l. reflexivity. Qed.
Lemma run_plain K l : forallb (fun o => negb (direct_delete o)) l = true -> reachable_plain K linux_x86_64 (run K l).
Proof. intros H. exists l. auto. Qed.

Lemma delete_breaks_registry : exists K st, reachable K linux_x86_64 st /\ d_dict st = [] /\ d_list st <> [].
Proof.
  exists (scripted (repeat (stop_by 19) 20)).
  exists (run (scripted (repeat (stop_by 19) 20)) [OpAdd 5 100 true None false; OpDelete 0; OpAdd 5 100 true None false; OpDetach 0]).
  split; [apply run_reachable|]. split; [vm_compute; reflexivity|]. vm_compute. discriminate.
Qed.
Lemma add_leaks_status : exists K st',
  addProcess K linux_x86_64 5 100 true None false (new_debugger linux_x86_64) = (st', Raise (XErr EProcessError)) /\
  registered st' 0%nat /\ ~ attached st' 0%nat.
Proof.
  exists (scripted [0xffff]).
  eexists. split; [vm_compute; reflexivity|]. split; [now left|]. intros (q & H & Ha). cbn in H. injection H as <-. discriminate.
Qed.
Lemma add_leaks_exec : exists K st',
  addProcess K linux_x86_64 5 100 true None false (new_debugger linux_x86_64) = (st', Raise (XEvent (ProcessExecution 0%nat))) /\
  registered st' 0%nat /\ ~ attached st' 0%nat.
Proof.
  exists (scripted [encode (TraceEvent 4)]).
  eexists. split; [vm_compute; reflexivity|]. split; [now left|]. intros (q & H & Ha). cbn in H. injection H as <-. discriminate.
Qed.
Definition is_setopt (c : kcall) : bool := match c with KSetOptions _ _ _ => true | _ => false end.
Lemma add_leaks_options : exists K st' x,
  addProcess K linux_x86_64 5 100 true None false (new_debugger linux_x86_64) = (st', Raise x) /\
  registered st' 0%nat.
Proof. exists (refusing is_setopt [stop_by 19]). do 2 eexists. split; [vm_compute; reflexivity|]. now left. Qed.

Definition is_detach (c : kcall) : bool := match c with KDetach _ _ => true | _ => false end.
Lemma detach_fails_leaks : exists K st st' x, reachable_plain K linux_x86_64 st /\ attached st 0%nat /\
  detach K 0 st = (st', Raise x) /\ registered st' 0%nat /\ detach K 0 st' = (st', Ret tt).
Proof.
  exists (refusing is_detach [0; stop_by 19]).
  exists (run (refusing is_detach [0; stop_by 19]) [OpAdd 5 100 false None false]). do 2 eexists.
  split; [now apply run_plain|]. split; [eexists; split; [vm_compute; reflexivity|reflexivity]|].
  split; [vm_compute; reflexivity|]. split; [now left|]. vm_compute. reflexivity.
Qed.
Lemma quit_leaks : exists K st st', reachable_plain K linux_x86_64 st /\ quit K linux_x86_64 5 st = (st', Ret tt) /\
  registered st 0%nat /\ registered st' 0%nat /\ d_dict st' = d_dict st /\ (forall i, registered st i -> has_pid st i 100).
Proof.
  exists (scripted [0xffff; 9; 9; 9]).
  exists (run (scripted [0xffff; 9; 9; 9]) [OpAdd 5 100 true None false]). eexists.
  split; [now apply run_plain|]. split; [vm_compute; reflexivity|]. split; [now left|]. split; [now left|].
  split; [vm_compute; reflexivity|]. intros i [<-|[]]. eexists. split; [vm_compute; reflexivity|reflexivity].
Qed.
Lemma terminate_lies : exists K st, reachable_plain K linux_x86_64 st /\ terminate K linux_x86_64 5 0 true st = (st, Ret true) /\ alive st 0%nat.
Proof.
  exists (scripted [0; stop_by 19]). exists (run (scripted [0; stop_by 19]) [OpAdd 5 100 false None false]).
  split; [now apply run_plain|]. split; [vm_compute; reflexivity|]. eexists. split; [vm_compute; reflexivity|reflexivity].
Qed.
(** ** C100 *)
Lemma lor_bit o m bits : (forall k, 0 <= k -> Z.testbit m k = existsb (Z.eqb k) bits) -> forall k, 0 <= k -> Z.testbit (Z.lor o m) k = Z.testbit o k || existsb (Z.eqb k) bits.
Proof. intros H k Hk. rewrite Z.lor_spec. now rewrite H. Qed.
Lemma pow2_bits i k : 0 <= i -> 0 <= k -> Z.testbit (2 ^ i) k = existsb (Z.eqb k) [i].
Proof. intros Hi Hk. rewrite Z.pow2_bits_eqb by exact Hi. cbn [existsb]. rewrite orb_false_r. apply Z.eqb_sym. Qed.
Lemma trace_fork p st : running_linux p = true -> exists st', traceFork p st = (st', Ret tt) /\ same_but_options st st' /\ adds_bits [1; 2] st st' /\
  d_trace_fork st' = true /\ d_trace_exec st' = d_trace_exec st /\ d_trace_clone st' = d_trace_clone st /\ d_sysgood st' = d_sysgood st.
Proof.
  intros H. unfold traceFork, has_ptrace_events. rewrite H. cbn [negb]. eexists. split; [reflexivity|]. split; [repeat split|]. split; [|repeat split].
  intros k Hk. apply lor_bit; [|exact Hk]. clear k Hk. intros k Hk. rewrite Z.lor_spec. change PTRACE_O_TRACEFORK with (2 ^ 1). change PTRACE_O_TRACEVFORK with (2 ^ 2).
  rewrite !pow2_bits by lia. cbn [existsb]. now rewrite !orb_false_r.
Qed.
Lemma trace_exec p st : running_linux p = true -> exists st', traceExec p st = (st', Ret tt) /\ same_but_options st st' /\ adds_bits [4] st st' /\
  d_trace_fork st' = d_trace_fork st /\ d_trace_exec st' = true /\ d_trace_clone st' = d_trace_clone st /\ d_sysgood st' = d_sysgood st.
Proof.
  intros H. unfold traceExec, has_ptrace_events. rewrite H. cbn [negb]. eexists. split; [reflexivity|]. split; [repeat split|]. split; [|repeat split].
  intros k Hk. apply lor_bit; [|exact Hk]. intros j Hj. exact (pow2_bits 4 j ltac:(lia) Hj).
Qed.
Lemma trace_clone p st : running_linux p = true -> exists st', traceClone p st = (st', Ret tt) /\ same_but_options st st' /\ adds_bits [3] st st' /\
  d_trace_fork st' = d_trace_fork st /\ d_trace_exec st' = d_trace_exec st /\ d_trace_clone st' = true /\ d_sysgood st' = d_sysgood st.
Proof.
  intros H. unfold traceClone, has_ptrace_events. rewrite H. cbn [negb]. eexists. split; [reflexivity|]. split; [repeat split|]. split; [|repeat split].
  intros k Hk. apply lor_bit; [|exact Hk]. intros j Hj. exact (pow2_bits 3 j ltac:(lia) Hj).
Qed.
Lemma sysgood_on p st : running_linux p = true -> exists st', enableSysgood p st = (st', Ret tt) /\ same_but_options st st' /\ adds_bits [0] st st' /\
  d_trace_fork st' = d_trace_fork st /\ d_trace_exec st' = d_trace_exec st /\ d_trace_clone st' = d_trace_clone st /\ d_sysgood st' = true.
Proof.
  intros H. unfold enableSysgood, has_ptrace_events. rewrite H. cbn [negb]. eexists. split; [reflexivity|]. split; [repeat split|]. split; [|repeat split].
  intros k Hk. apply lor_bit; [|exact Hk]. intros j Hj. exact (pow2_bits 0 j ltac:(lia) Hj).
Qed.
Lemma options_bsd p st : running_linux p = false ->
  traceFork p st = (st, Raise (XErr EDebuggerError)) /\ traceExec p st = (st, Ret tt) /\ traceClone p st = (st, Ret tt) /\ enableSysgood p st = (st, Ret tt).
Proof. intros H. unfold traceFork, traceExec, traceClone, enableSysgood, has_ptrace_events. rewrite H. repeat split. Qed.
Lemma fresh_debugger p : new_debugger p = DState [] [] [] (if running_linux p then 1 else 0) false false false (running_linux p) [].
Proof. unfold new_debugger, enableSysgood, has_ptrace_events. destruct (running_linux p); reflexivity. Qed.
Lemma syscall_openbsd K p id s st q : running_openbsd p = true -> nth_error (d_procs st) id = Some q -> syscall K p id s st = (st, Raise (XErr ENameError)).
Proof. intros H Hq. unfold syscall, dbind, get_proc. rewrite Hq. cbn. now rewrite H. Qed.
Lemma wait_thread_bsd K p pid b st id q : running_linux p = false -> pid <> 0 -> dget Z.eqb pid (d_dict st) = Some id -> nth_error (d_procs st) id = Some q -> pr_is_thread q = true ->
  waitpid_ K p pid b st = (st, Raise (XErr ENameError)).
Proof.
  intros H Hp Hd Hq Ht. unfold waitpid_, dbind. destruct (Z.eqb_spec pid 0); [easy|]. cbn [negb]. unfold dget_state, get_proc. rewrite Hd, Hq, Ht. unfold has_ptrace_events. rewrite H. reflexivity.
Qed.
