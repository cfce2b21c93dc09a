(** * StraceProofs2: the processes announced by waiting functions are new; the filters of strace.py (C50). *)
From Coq Require Import ZArith List Ascii String Bool Lia.
From Verif Require Import PyBase PyFacts Platform IntModel RegModel SigModel TabModel TabSpec TabProofs ToolsModel ArgModel DbgModel DbgSpec DbgProofs DbgProofs2 DbgProofs3 DbgProofs4 DbgProofs5 DbgFinal2
  SysModel SysSpec SysProofs SysProofs2 ProcModel StraceModel StraceSpec StraceProofs.
Import ListNotations.
Open Scope Z_scope.

(** ** A NewProcessEvent is about a process that was not there before *)
Notation procs_count st := (List.length (d_procs st)).
(** [W a id]: the result mentions the new process [id]. *)
Definition w_none {A} (_ : A) (_ : nat) : Prop := False.
Definition w_event (ev : event) (id : nat) : Prop := ev = NewProcessEvent id.
Definition w_option (ev : option event) (id : nat) : Prop := ev = Some (NewProcessEvent id).
Definition outcome_new {A} (W : A -> nat -> Prop) (r : out A) (id : nat) : Prop :=
  match r with Ret a => W a id | Raise (XEvent ev) => ev = NewProcessEvent id | Raise _ => False end.
Definition fresh {A} (W : A -> nat -> Prop) (m : D A) : Prop :=
  forall st, (procs_count st <= procs_count (fst (m st)))%nat /\ forall id, outcome_new W (snd (m st)) id -> (procs_count st <= id)%nat.

Lemma fresh_bind {A B} (W : B -> nat -> Prop) (m : D A) (f : A -> D B) : fresh w_none m -> (forall a, fresh W (f a)) -> fresh W (dbind m f).
Proof.
  intros Hm Hf st. unfold dbind. destruct (Hm st) as [H1 H2]. destruct (m st) as [s [a|x]]; cbn [fst snd] in *.
  - destruct (Hf a s) as [H3 H4]. split; [lia|]. intros id H. specialize (H4 id H). lia.
  - split; [lia|]. intros id H. apply H2. exact H.
Qed.
Lemma fresh_ret {A} W (a : A) : (forall id, ~ W a id) -> fresh W (dret a).
Proof. intros H st. split; [cbn; lia|]. intros id Hi. now apply H in Hi. Qed.
Lemma fresh_raise {A} (W : A -> nat -> Prop) e : fresh W (draise e).
Proof. intros st. split; [cbn; lia|]. intros id []. Qed.
Lemma fresh_throw {A} (W : A -> nat -> Prop) ev : (forall id, ev <> NewProcessEvent id) -> fresh W (dthrow ev).
Proof. intros H st. split; [cbn; lia|]. intros id Hi. now apply H in Hi. Qed.
(** An outcome can be passed on. *)
Lemma fresh_pass {A B} W W' (m : D A) (f : A -> D B) : fresh W m ->
  (forall a st, (procs_count st <= procs_count (fst (f a st)))%nat /\ forall id, outcome_new W' (snd (f a st)) id -> W a id \/ (procs_count st <= id)%nat) -> fresh W' (dbind m f).
Proof.
  intros Hm Hf st. unfold dbind. destruct (Hm st) as [H1 H2]. destruct (m st) as [s [a|x]]; cbn [fst snd] in *.
  - destruct (Hf a s) as [H3 H4]. split; [lia|]. intros id H. destruct (H4 id H) as [H5|H5]; [apply H2; exact H5|lia].
  - split; [lia|]. intros id H. apply H2. exact H.
Qed.
Lemma fresh_any {A} W (m : D A) : fresh W m -> fresh w_none m.
Proof. intros H st. destruct (H st) as [H1 H2]. split; [exact H1|]. intros id Hi. apply H2. destruct (snd (m st)) as [a|[e|ev]]; [destruct Hi|exact Hi|exact Hi]. Qed.

Section Wait.
  Context (K : dkernel) (p : platform).
  Lemma fresh_request c : fresh w_none (request K c).
  Proof. intros st. unfold request. destruct (k_do K _ _); cbn; (split; [lia|]); intros id []. Qed.
  Lemma fresh_msg id pid : fresh w_none (ptrace_geteventmsg K id pid).
  Proof. intros st. unfold ptrace_geteventmsg. destruct (k_msg K _ _); cbn; (split; [lia|]); intros i []. Qed.
  Lemma fresh_os pid flags : fresh w_none (os_waitpid K pid flags).
  Proof. intros st. unfold os_waitpid. destruct (k_wait K _ _ _); cbn; (split; [lia|]); intros i []. Qed.
  Lemma fresh_get : fresh w_none dget_state. Proof. intros st. cbn. split; [lia|]. intros id []. Qed.
  Lemma fresh_proc id : fresh w_none (get_proc id).
  Proof. intros st. unfold get_proc. destruct (nth_error _ _); cbn; (split; [lia|]); intros i []. Qed.
  Lemma fresh_upd id f : fresh w_none (upd_proc id f).
  Proof. intros st. unfold upd_proc. cbn. rewrite upd_nth_length. split; [lia|]. intros i []. Qed.
  Lemma fresh_delete id : fresh w_none (deleteProcess id).
  Proof. intros st. unfold deleteProcess, dbind, get_proc. destruct (nth_error _ _); cbn; (split; [lia|]); intros i []. Qed.
  Ltac fr := repeat first [ assumption | apply fresh_get | apply fresh_proc | apply fresh_upd | apply fresh_delete | apply fresh_request | apply fresh_os | apply fresh_msg | apply fresh_raise
    | (apply fresh_ret; solve [intros ? [] | intros ? []; discriminate | intros ? ?; discriminate | intros ? ?; contradiction])
    | (apply fresh_throw; discriminate)
    | solve [auto]
    | (apply fresh_bind; [|intros])
    | match goal with |- fresh _ (if ?b then _ else _) => destruct b end
    | match goal with |- fresh _ (let '(_, _) := ?b in _) => destruct b end
    | match goal with |- fresh _ (match ?b with _ => _ end) => destruct b end ].
  Lemma fresh_detach id : fresh w_none (detach K id). Proof. unfold detach. fr. Qed.
  Lemma fresh_notRunning id : fresh w_none (notRunning K id). Proof. unfold notRunning. pose proof fresh_detach. fr. Qed.
  Lemma fresh_cont id s : fresh w_none (cont K id s). Proof. unfold cont. fr. Qed.
  Lemma fresh_setoptions id s : fresh w_none (setoptions K p id s). Proof. unfold setoptions. fr. Qed.
  Lemma fresh_waitpid pid b : fresh w_none (waitpid_ K p pid b). Proof. unfold waitpid_. fr. Qed.
  Hint Resolve fresh_detach fresh_notRunning fresh_cont fresh_setoptions fresh_waitpid : core.
  Lemma waitpid_events pid b st ev : snd (waitpid_ K p pid b st) <> Raise (XEvent ev).
  Proof.
    unfold waitpid_, dbind, dget_state, draise, dret, os_waitpid, get_proc.
    repeat match goal with |- context [match ?b with _ => _ end] => destruct b eqn:?; cbn end; try discriminate;
    repeat match goal with H : context [match ?b with _ => _ end] |- _ => destruct b eqn:?; cbn in H end; congruence.
  Qed.
  Section WithRec.
    Context (rec : wquery -> D (option event)) (Hrec : forall q, fresh w_option (rec q)).
    Let Hrec0 q : fresh w_none (rec q). Proof. eapply fresh_any, Hrec. Qed.
    Lemma fresh_signals l pid : fresh w_event (waitSignals_ rec l pid).
    Proof.
      unfold waitSignals_. eapply fresh_pass; [apply Hrec|]. intros [ev|] st; [|cbn; split; [lia|intros id []]].
      destruct ev; cbn; try (split; [lia|]; intros id H; left; unfold w_option; congruence). destruct (_ || _); cbn; (split; [lia|]); intros id H; discriminate H.
    Qed.
    Lemma fresh_add pid a par th : fresh w_none (addProcess_ K p rec pid a par th).
    Proof.
      unfold addProcess_. apply fresh_bind; [fr|]. intros st0. destruct (dmem _ _ _); [fr|].
      apply fresh_bind; [fr|]. intros _. apply fresh_bind. { intros s. cbn. rewrite app_length. cbn. split; [lia|]. intros id []. } intros _.
      apply fresh_bind; [|intros _; apply fresh_bind; [|intros _; apply fresh_ret; intros ? []]].
      + intros s. destruct (fresh_signals [SIGTRAP; SIGSTOP] (Some pid) s) as [H1 H2]. destruct (waitSignals_ rec [SIGTRAP; SIGSTOP] (Some pid) s) as [s1 [ev|x]]; cbn [fst snd] in *; [split; [exact H1|intros id []]|].
        pose proof (fresh_detach (procs_count st0) (fst (upd_proc (procs_count st0) (set_attached false) s1))) as [Hd1 Hd2].
        pose proof (fresh_upd (procs_count st0) (set_attached false) s1) as [Hu1 _].
        assert (let r := (match upd_proc (procs_count st0) (set_attached false) s1 with
                 | (s2, _) => match detach K (procs_count st0) s2 with (s3, Ret _) => (s3, Raise x) | (s3, Raise x') => (s3, @Raise unit x') end end) in
                (procs_count s <= procs_count (fst r))%nat /\ forall id, outcome_new w_none (snd r) id -> (procs_count s <= id)%nat) as Hbad.
        { cbv zeta. destruct (upd_proc (procs_count st0) (set_attached false) s1) as [s2 u]. cbn [fst snd] in *. destruct (detach K (procs_count st0) s2) as [s3 [v|x']]; cbn [fst snd] in *; (split; [lia|]); intros id H.
          - apply H2. exact H.
          - specialize (Hd2 id H). lia. }
        destruct x as [e|ev]; [destruct e; try exact Hbad; cbn; split; [exact H1|intros id []]|]. destruct ev as [| | |sg who]; try exact Hbad.
        pose proof (fresh_request (KDisplay who sg) s1) as [Hr1 Hr2]. split; [lia|]. intros id' H. specialize (Hr2 id' H). lia.
      + intros s. destruct (_ && _); [apply fresh_setoptions|]. cbn. split; [lia|intros id []].
    Qed.
    Lemma add_id pid a par th st st' id : addProcess_ K p rec pid a par th st = (st', Ret id) -> id = procs_count st.
    Proof.
      unfold addProcess_. unfold dbind at 1, dget_state. destruct (dmem _ _ _); [discriminate|]. intros H.
      assert (forall X Y (m : D X) (f : X -> D Y) s s' y, dbind m f s = (s', Ret y) -> exists s1 x, f x s1 = (s', Ret y)) as Hb.
      { intros X Y m f s s' y. unfold dbind. destruct (m s) as [s1 [x|x]]; [eauto|discriminate]. }
      do 4 (apply Hb in H as (? & ? & H)). now injection H as _ <-.
    Qed.
    Hint Resolve fresh_add : core.
    Lemma fresh_event id ev : fresh w_event (ptraceEvent_ K p rec id ev).
    Proof.
      unfold ptraceEvent_. destruct (negb _); [fr|]. destruct (_ || _).
      - apply fresh_bind; [fr|]. intros q. apply fresh_bind; [fr|]. intros pid st. unfold dbind. destruct (fresh_add pid true (Some id) (ev =? PTRACE_EVENT_CLONE) st) as [H1 H2].
        destruct (addProcess_ K p rec pid true (Some id) (ev =? PTRACE_EVENT_CLONE) st) as [st1 [new|x]] eqn:E; cbn [fst snd] in *; (split; [exact H1|]); intros i Hi.
        + apply add_id in E. cbn in Hi. injection Hi as <-. lia.
        + apply H2. exact Hi.
      - fr.
    Qed.
    Lemma fresh_status id status : fresh w_event (processStatus_ K p rec id status).
    Proof. unfold processStatus_, processExited_, processKilled, processSignal. pose proof fresh_event. fr. Qed.
    Lemma fresh_some (m : D event) : fresh w_event m -> fresh w_option (ev <== m; dret (Some ev)).
    Proof. intros H. eapply fresh_pass; [exact H|]. intros ev st. cbn. split; [lia|]. intros id [= ->]. left. reflexivity. Qed.
    Lemma fresh_pid pid b : fresh w_option (wait_event_pid_ K p rec pid b).
    Proof.
      intros st. unfold wait_event_pid_. destruct (fresh_waitpid pid b st) as [H1 H2]. pose proof (waitpid_events pid b st) as He.
      destruct (waitpid_ K p pid b st) as [s [[pid' status]|x]]; cbn [fst snd] in *.
      - destruct (_ && _); [split; [exact H1|intros id Hi; discriminate Hi]|]. destruct (dget _ _ _) as [id|].
        + destruct (fresh_some _ (fresh_status id status) s) as [H3 H4]. split; [lia|]. intros i Hi. specialize (H4 i Hi). lia.
        + destruct (Hrec (QPid pid b) s) as [H3 H4]. split; [lia|]. intros i Hi. specialize (H4 i Hi). lia.
      - destruct x as [e|ev]; [|now destruct (He ev)]. assert (forall e, let r := (s, @Raise (option event) (XErr e)) in (procs_count st <= procs_count (fst r))%nat /\ forall id, outcome_new w_option (snd r) id -> (procs_count st <= id)%nat) as Hbad.
        { intros e'. cbn. split; [exact H1|intros id []]. }
        destruct e; try apply Hbad. destruct (_ =? _); [|apply Hbad]. destruct (dget _ _ _) as [id|]; [|apply Hbad].
        assert (fresh w_option (ev <== processTerminated K id; dret (Some ev))) as Ht by (apply fresh_some; unfold processTerminated; fr).
        destruct (Ht s) as [H3 H4]. split; [lia|]. intros i Hi. specialize (H4 i Hi). lia.
    Qed.
    Lemma fresh_poll l : fresh w_option (poll rec l).
    Proof.
      induction l as [|pid l IH]; cbn [poll]; [fr|]. eapply fresh_pass; [apply Hrec|]. intros [ev|] st; [cbn; split; [lia|]; intros id [= ->]; left; reflexivity|].
      destruct (IH st) as [H1 H2]. split; [exact H1|]. intros id Hi. right. now apply H2.
    Qed.
    Lemma fresh_any_ pause b : fresh w_option (wait_any_ K rec pause b).
    Proof.
      apply fresh_bind; [fr|]. intros st. destruct (map fst (d_dict st)) as [|a [|c l]]; [fr|apply Hrec|].
      eapply fresh_pass; [apply fresh_poll|]. intros [ev|] s; [cbn; split; [lia|]; intros id [= ->]; left; reflexivity|].
      destruct (negb b); [cbn; split; [lia|]; intros id Hi; discriminate Hi|].
      assert (fresh w_option (let pause := Z.min (pause * 2) 500 in _ <== request K (KSleep pause); rec (QAny pause b))) as Hw by fr. destruct (Hw s) as [H1 H2].
      split; [exact H1|]. intros id Hi. right. now apply H2.
    Qed.
    Lemma fresh_exit id : fresh w_option (waitExit_ K rec id).
    Proof.
      unfold waitExit_. apply fresh_bind; [fr|]. intros q. eapply fresh_pass; [apply Hrec|]. intros [ev|] s; [|cbn; split; [lia|]; intros i []].
      destruct ev as [i sg c|i|i|sg who]; try (cbn; split; [lia|]; intros j H; first [discriminate H|left; unfold w_option; congruence]).
      assert (fresh w_option (_ <== cont K id (if (sg =? SIGTRAP) || (sg =? SIGSTOP) then 0 else sg); rec (QExit id))) as Hw by fr. destruct (Hw s) as [H1 H2].
      split; [exact H1|]. intros j Hi. right. now apply H2.
    Qed.
  End WithRec.
  Lemma fresh_wait fuel : forall q, fresh w_option (wait K p fuel q).
  Proof.
    induction fuel as [|f IH]; intros q; cbn [wait]; [apply fresh_raise|]. destruct q; [now apply fresh_pid|now apply fresh_any_|now apply fresh_exit].
  Qed.
  Lemma fresh_waitSignals fuel l pid : fresh w_event (waitSignals K p fuel l pid).
  Proof. apply fresh_signals. intros q. apply fresh_wait. Qed.
End Wait.

Lemma tbind_cases {A B} (m : TM A) (f : A -> TM B) st st' r : tbind m f st = (st', r) ->
  (exists st1 a, m st = (st1, Ret a) /\ f a st1 = (st', r)) \/ exists x, m st = (st', Raise x) /\ r = Raise x.
Proof. unfold tbind. destruct (m st) as [s [a|x]]; [left; eauto|]. intros [= <- <-]. right. eauto. Qed.

Section Filter.
  Context (p : platform) (ns : namespace) (repr_fs : list byte -> text) (errorcode : list (Z * text)) (strerror : Z -> text)
          (K : dkernel) (stops : nat -> nat -> stop) (o : soptions) (only : list text) (child : res Z).
  Notation round := (round p ns repr_fs errorcode strerror K stops o only).
  Notation trace_loop := (trace_loop p ns repr_fs errorcode strerror K stops o only).
  Notation syscallTrace := (syscallTrace p ns repr_fs errorcode strerror K stops o only).
  Notation handle_event := (handle_event p ns repr_fs errorcode strerror K stops o only).
  Notation handle_syscall := (handle_syscall p ns repr_fs errorcode strerror K stops o only).
  Notation handle_exit := (handle_exit p ns repr_fs stops o).
  Notation handle_new := (handle_new p K).
  Notation displaySyscall := (displaySyscall p ns repr_fs stops o).
  Notation state_event := (state_event p ns repr_fs errorcode strerror K stops o only).
  Notation ss_event' := (ss_event p ns repr_fs errorcode strerror K true).

  (** *** One call *)
  Definition fine (c : syscall_call) : Prop := exists name, call_name p (c_number c) name /\ selected o only name.
  Lemma mem_In x l : mem x l = true <-> In x l.
  Proof. unfold mem. rewrite existsb_exists. split; [intros (y & H & E); apply text_eqb_eq in E; now subst|intros H; exists x; split; [exact H|apply text_eqb_refl]]. Qed.
  Lemma ignore_selected c : ignoreSyscall o only c = false <-> selected o only (f_name (c_func c)).
  Proof.
    unfold ignoreSyscall, selected. cbv zeta. destruct (_ && _) eqn:E.
    - apply andb_prop in E as [E1 E2]. apply negb_true_iff in E2. split; [discriminate|]. intros ([H|H] & _); [rewrite H in E1; discriminate|]. apply mem_In in H. congruence.
    - assert (only = [] \/ In (f_name (c_func c)) only) as Ho.
      { destruct only as [|x l]; [now left|]. right. cbn [andb] in E. apply negb_false_iff in E. now apply mem_In. }
      destruct (s_regex o) as [m|]; split; auto.
      + intros H. split; [exact Ho|]. now intros m' [= <-].
      + intros [_ H]. now apply H.
      + intros _. split; [exact Ho|]. discriminate.
  Qed.
  Lemma new_call_name regs c : new_syscall p regs = Ok c -> call_name p (c_number c) (f_name (c_func c)).
  Proof.
    intros H. destruct (new_spec p regs c H) as (_ & _ & _ & H1 & H2 & _). unfold new_syscall, readSyscall in H. destruct (regs (SYSCALL_REGISTER p)) as [n|e]; cbn [bind] in H; [|discriminate H].
    destruct (SYSCALL_NAMES p) as [names|e] eqn:E; cbn [bind] in H; [|discriminate H]. destruct (dget Z.eqb (c_number c) names) as [name|] eqn:Ed.
    - left. assert (has_number p (c_number c) name) as Hn by now apply (has_number_dget p _ name names E). now rewrite (H1 name Hn).
    - right. assert (forall x, ~ has_number p (c_number c) x) as Hn; [|auto]. intros x Hx. apply (has_number_dget p _ x names E) in Hx. congruence.
  Qed.
  Lemma enter_number opts v sp regs c c' : enter p ns repr_fs opts v sp regs c = Ok c' -> c_number c' = c_number c.
  Proof.
    unfold enter. destruct (readArgumentValues p v sp regs) as [values|e]; cbn [bind]; [|discriminate]. cbv zeta. intros H.
    match type of H with context [bind ?m _] => destruct m as [f|e] end; cbn [bind] in H; [|discriminate H].
    match type of H with context [bind ?m _] => destruct m as [f'|e] end; cbn [bind] in H; [|discriminate H].
    match type of H with context [bind ?m _] => destruct m as [ip|e] end; cbn [bind] in H; [|discriminate H]. now injection H as <-.
  Qed.
  Lemma fine_number c c' : c_number c' = c_number c -> fine c -> fine c'.
  Proof. unfold fine. now intros ->. Qed.

  (** Whatever the outcome, the state and the result keep a call that is not ignored. *)
  Lemma event_fine fuel id st s d s' d' r : ss_event' (Some (ignoreSyscall o only)) (syscall_options o) fuel id st (s, d) = ((s', d'), r) ->
    (forall c, ss_syscall s = Some c -> fine c) ->
    (forall c, ss_syscall s' = Some c -> fine c) /\ (forall c, r = Ret (Some c) -> fine c).
  Proof.
    intros H Hs. unfold ss_event, sbind at 1, sget at 1 in H. cbn [fst] in H. destruct (ss_exit s).
    - unfold ss_exit_, sbind, slift, sput, sget, sret, sdbg, dget_state in H. cbn [fst snd] in H. destruct (ss_syscall s) as [c|] eqn:Es; cbn [fst snd] in H.
      + destruct (exit_ p errorcode strerror (st_result st) c) as [[c' t]|e] eqn:Ee; cbn [fst snd ss_name ss_syscall] in H.
        * assert (fine c') as Hc' by (apply (fine_number c); [apply exit_same in Ee as (Hsc & _); apply Hsc|now apply Hs]).
          destruct (_ && _ && _); cbn [fst snd] in H.
          -- destruct (skip_exec_trap p K fuel id d) as [d2 [[]|x]]; cbn in H; injection H as <- <- <-; cbn; split; congruence.
          -- injection H as <- <- <-. cbn. split; congruence.
        * injection H as <- <- <-. split; [|discriminate]. intros c' Hc'. rewrite Es in Hc'. now apply Hs.
      + destruct (_ && _ && _); cbn [fst snd] in H.
        * destruct (skip_exec_trap p K fuel id d) as [d2 [[]|x]]; cbn in H; injection H as <- <- <-; cbn; rewrite ?Es; split; congruence.
        * cbn in H. injection H as <- <- <-. cbn. rewrite Es. split; congruence.
    - unfold ss_enter, sbind, slift, sput, sget, sret in H. cbn [fst snd] in H. destruct (st_regs st) as [regs|e]; [|injection H as <- <- <-; split; [exact Hs|discriminate]].
      destruct (new_syscall p regs) as [c|e] eqn:Ec; [|injection H as <- <- <-; split; [exact Hs|discriminate]]. cbn [fst snd ss_name ss_exit ss_syscall] in H.
      destruct (ignoreSyscall o only c) eqn:Ei; cbn [negb fst snd ss_name ss_exit ss_syscall] in H.
      + injection H as <- <- <-. cbn. split; congruence.
      + assert (fine c) as Hc. { exists (f_name (c_func c)). split; [now apply (new_call_name regs)|now apply ignore_selected]. }
        destruct (enter p ns repr_fs (syscall_options o) (st_view st) (st_sp st) regs c) as [c'|e] eqn:Ee; cbn [fst snd ss_name ss_exit ss_syscall] in H; injection H as <- <- <-; cbn.
        * assert (fine c') by (apply (fine_number c); [now apply enter_number in Ee|exact Hc]). split; congruence.
        * split; [congruence|discriminate].
  Qed.
  Lemma event_grows ignore opts fuel id st s d s' d' r : ss_event' ignore opts fuel id st (s, d) = ((s', d'), r) -> (procs_count d <= procs_count d')%nat.
  Proof.
    intros H. unfold ss_event, sbind at 1, sget at 1 in H. cbn [fst] in H. destruct (ss_exit s).
    - assert (forall d2 x, skip_exec_trap p K fuel id d = (d2, x) -> (procs_count d <= procs_count d2)%nat) as Hk.
      { intros d2 x Hx. unfold skip_exec_trap, dbind in Hx. destruct (syscall K p id 0 d) as [d1 [u|y]] eqn:E1.
        - destruct u. apply syscall_ok in E1 as (q & _ & _ & E1). assert (procs_count d1 = procs_count d) as Hl by (rewrite E1; unfold with_stopped; cbn; apply upd_nth_length).
          unfold get_proc in Hx. destruct (nth_error (d_procs d1) id) as [q1|]; [|injection Hx as <- _; lia]. destruct (waitSignals K p fuel _ _ d1) as [d3 r3] eqn:Ew.
          pose proof (ticks_length _ _ _ (within_any_signals K p fuel [SIGTRAP; Z.lor SIGTRAP 128] (Some (pr_pid q1)) d1)) as Hl2. rewrite Ew in Hl2. cbn [fst] in Hl2. destruct r3; injection Hx as <- _; lia.
        - injection Hx as <- _. unfold syscall, dbind, get_proc, request, upd_proc in E1. destruct (nth_error (d_procs d) id) as [q|]; [|injection E1 as <- _; lia].
          destruct (running_openbsd p); [injection E1 as <- _; lia|]. destruct (k_do K _ _); injection E1 as <-; cbn; rewrite ?upd_nth_length; lia. }
      unfold ss_exit_, sbind, slift, sput, sget, sret, sdbg, dget_state in H. cbn [fst snd] in H. destruct (ss_syscall s) as [c|] eqn:Es; cbn [fst snd] in H.
      + destruct (exit_ p errorcode strerror (st_result st) c) as [[c' t]|e] eqn:Ee; cbn [fst snd ss_name ss_syscall] in H; [|injection H as _ <- _; lia].
        destruct (_ && _ && _); cbn [fst snd] in H; [|injection H as _ <- _; lia].
        destruct (skip_exec_trap p K fuel id d) as [d2 x] eqn:Ex. specialize (Hk d2 x eq_refl). destruct x as [[]|x]; cbn in H; injection H as _ <- _; exact Hk.
      + destruct (_ && _ && _); cbn [fst snd] in H; [|injection H as _ <- _; lia].
        destruct (skip_exec_trap p K fuel id d) as [d2 x] eqn:Ex. specialize (Hk d2 x eq_refl). destruct x as [[]|x]; cbn in H; injection H as _ <- _; exact Hk.
    - unfold ss_enter, sbind, slift, sput, sget, sret in H. cbn [fst snd] in H. destruct (st_regs st) as [regs|e]; [|injection H as _ <- _; lia].
      destruct (new_syscall p regs) as [c|e] eqn:Ec; [|injection H as _ <- _; lia]. cbn [fst snd ss_name ss_exit ss_syscall] in H.
      destruct (match ignore with Some f => negb (f c) | None => true end); cbn [negb fst snd ss_name ss_exit ss_syscall] in H; [|injection H as _ <- _; lia].
      destruct (enter _ _ _ _ _ _ _ _) as [c'|e] eqn:Ee; cbn [fst snd ss_name ss_exit ss_syscall] in H; injection H as _ <- _; lia.
  Qed.

  (** *** The invariant *)
  Definition states_ok (st : tstate) : Prop := forall id c, known_process (t_log st) id -> ss_syscall (state_of st id) = Some c -> fine c.
  Definition log_ok (l : list tline) : Prop := forall after before id c t, l = after ++ LSyscall id c t :: before -> known_process before id -> fine c.
  Definition good (st : tstate) : Prop := states_ok st /\ log_ok (t_log st).
  Definition unborn (but : option nat) (st : tstate) : Prop :=
    forall id, (procs_count (t_dbg st) <= id)%nat -> but <> Some id -> ss_syscall (state_of st id) = None.
  Definition prepared (st : tstate) : Prop := forall id, known_process (t_log st) id -> is_ready st id = true.
  Definition full (st : tstate) : Prop := good st /\ unborn None st /\ prepared st.

  Lemma log_ok_cons x l : log_ok l -> (forall id c t, x = LSyscall id c t -> known_process l id -> fine c) -> log_ok (x :: l).
  Proof.
    intros Hl Hx after before id c t E Hk. destruct after as [|y after]; cbn in E; injection E as -> E.
    - subst. eapply Hx; [reflexivity|exact Hk].
    - eapply Hl; [exact E|exact Hk].
  Qed.
  Lemma known_other x l id : (forall t, x <> LNewProcess id t) -> known_process (x :: l) id -> known_process l id.
  Proof. intros Hx [H|(t & [H|H])]; [now left| |right; now exists t]. subst x. now destruct (Hx t). Qed.
  Lemma state_set s st id i : state_of (set_sys st (dset Nat.eqb id s (t_sys st))) i = if Nat.eqb i id then s else state_of st i.
  Proof.
    unfold state_of, set_sys. cbn [t_sys]. destruct (Nat.eqb_spec i id) as [->|Hn].
    - now rewrite (dget_dset_same Nat.eqb Nat.eqb_eq).
    - now rewrite (dget_dset_other Nat.eqb Nat.eqb_eq).
  Qed.

  (** Steps that leave the states of the calls and the log alone *)
  Definition quiet (a b : tstate) : Prop :=
    t_sys b = t_sys a /\ t_log b = t_log a /\ (forall id, is_ready a id = true -> is_ready b id = true) /\ (procs_count (t_dbg a) <= procs_count (t_dbg b))%nat.
  Lemma quiet_good a b : quiet a b -> good a -> good b.
  Proof. intros (H1 & H2 & _ & _) [G1 G2]. unfold good, states_ok, state_of. rewrite H1, H2. auto. Qed.
  Lemma quiet_unborn but a b : quiet a b -> unborn but a -> unborn but b.
  Proof. intros (H1 & _ & _ & H3) U id Hi Hb. unfold state_of. rewrite H1. apply U; [lia|exact Hb]. Qed.
  Lemma quiet_prepared a b : quiet a b -> prepared a -> prepared b.
  Proof. intros (_ & H2 & H3 & _) P id Hi. rewrite H2 in Hi. apply H3. auto. Qed.
  Lemma quiet_full a b : quiet a b -> full a -> full b.
  Proof. intros Q (F1 & F2 & F3). split; [|split]; [eapply quiet_good|eapply quiet_unborn|eapply quiet_prepared]; eassumption. Qed.
  Lemma quiet_refl a : quiet a a. Proof. repeat split; auto. Qed.
  Lemma quiet_trans a b c : quiet a b -> quiet b c -> quiet a c.
  Proof. intros (A1 & A2 & A3 & A4) (B1 & B2 & B3 & B4). repeat split; [congruence|congruence|auto|lia]. Qed.
  Lemma quiet_dbg {A} (m : D A) st st' r : (forall d, (procs_count d <= procs_count (fst (m d)))%nat) -> tdbg m st = (st', r) -> quiet st st'.
  Proof. intros Hm. unfold tdbg. specialize (Hm (t_dbg st)). destruct (m (t_dbg st)) as [d r']. intros [= <- _]. repeat split; auto. Qed.
  Lemma syscall_count id s d : procs_count (fst (syscall K p id s d)) = procs_count d.
  Proof.
    unfold syscall, dbind, get_proc, request, upd_proc. destruct (nth_error (d_procs d) id) as [q|]; [|reflexivity]. destruct (running_openbsd p); [reflexivity|].
    destruct (k_do K _ _); cbn; [apply upd_nth_length|reflexivity].
  Qed.
  Lemma quiet_syscall id s st st' r : proc_syscall p K id s st = (st', r) -> quiet st st'.
  Proof. apply quiet_dbg. intros d. rewrite syscall_count. lia. Qed.
  Lemma quiet_request c st st' r : tdbg (request K c) st = (st', r) -> quiet st st'.
  Proof. apply quiet_dbg. intros d. cbn. lia. Qed.
  Lemma quiet_wait f st st' r : tdbg (waitSyscall K p f None) st = (st', r) -> quiet st st'.
  Proof. apply quiet_dbg. intros d. rewrite waitSyscall_eq. eapply ticks_length. apply within_any_signals. Qed.
  Lemma quiet_get_proc id st st' r : tdbg (get_proc id) st = (st', r) -> quiet st st'.
  Proof. apply quiet_dbg. intros d. unfold get_proc. destruct (nth_error _ _); cbn; lia. Qed.

  (** displaySyscall() and the call kept *)
  Lemma display_outcome id c st st' r : displaySyscall id c st = (st', r) ->
    (exists x, r = Raise x /\ st' = st) \/ exists c' t, r = Ret c' /\ c_number c' = c_number c /\
      st' = TState (t_dbg st) (t_sys st) (t_ready st) (LSyscall id c' t :: t_log st) (t_seen st).
  Proof.
    destruct r as [c'|x]; intros H.
    - right. apply display_ok in H as (f & t & _ & -> & ->). eexists _, _. split; [reflexivity|]. split; reflexivity.
    - left. unfold StraceModel.displaySyscall, tbind, tget, tres in H. cbn in H. destruct (format _ _ _ _ _ _) as [ft|e]; cbn in H; [discriminate H|]. injection H as <- <-. eauto.
  Qed.
  Lemma show_full id c but st st' r : tbind (displaySyscall id c) (keep_call id) st = (st', r) ->
    (known_process (t_log st) id -> fine c) -> good st ->
    good st' /\ (unborn but st -> unborn but st') /\ (prepared st -> prepared st') /\ t_dbg st' = t_dbg st /\ (forall i, known_process (t_log st') i -> known_process (t_log st) i).
  Proof.
    intros H Hc [G1 G2]. unfold tbind in H. destruct (displaySyscall id c st) as [st1 r1] eqn:E. apply display_outcome in E as [(x & -> & ->)|(c' & t & -> & Hn & ->)].
    - injection H as <- _. split; [split; assumption|]. auto.
    - set (st1 := TState (t_dbg st) (t_sys st) (t_ready st) (LSyscall id c' t :: t_log st) (t_seen st)) in *. unfold keep_call in H. apply (f_equal fst) in H. cbn [fst] in H.
      assert (forall i, known_process (LSyscall id c' t :: t_log st) i -> known_process (t_log st) i) as Hkn by (intros i; apply known_other; discriminate).
      assert (log_ok (LSyscall id c' t :: t_log st)) as Hlog.
      { apply log_ok_cons; [exact G2|]. intros i c0 t0 [= <- <- <-] Hk. apply (fine_number c); auto. }
      destruct (ss_syscall (state_of st1 id)) as [c0|] eqn:Es; subst st'.
      + split; [split|split; [|split; [|split; [reflexivity|exact Hkn]]]].
        * intros i ci Hk Hi. rewrite state_set in Hi. apply Hkn in Hk. destruct (Nat.eqb_spec i id) as [->|Hne]; [|now apply (G1 i ci Hk)].
          cbn in Hi. injection Hi as <-. apply (fine_number c); auto.
        * exact Hlog.
        * intros U i Hi Hb. rewrite state_set. destruct (Nat.eqb_spec i id) as [->|Hne]; [|now apply U]. exfalso. pose proof (U id Hi Hb) as Hu.
          change (ss_syscall (state_of st1 id)) with (ss_syscall (state_of st id)) in Es. congruence.
        * intros P i Hk. apply (P i). now apply Hkn.
      + split; [split|split; [|split; [|split; [reflexivity|exact Hkn]]]].
        * intros i ci Hk Hi. apply Hkn in Hk. now apply (G1 i ci Hk).
        * exact Hlog.
        * intros U i Hi Hb. now apply U.
        * intros P i Hk. apply (P i). now apply Hkn.
  Qed.
  Lemma line_full x but st : (forall id t, x <> LNewProcess id t) -> (forall id c t, x <> LSyscall id c t) ->
    let st' := TState (t_dbg st) (t_sys st) (t_ready st) (x :: t_log st) (t_seen st) in
    (good st -> good st') /\ (unborn but st -> unborn but st') /\ (prepared st -> prepared st').
  Proof.
    intros H1 H2 st'. assert (forall i, known_process (x :: t_log st) i -> known_process (t_log st) i) as Hkn by (intros i; apply known_other, H1).
    split; [|split].
    - intros [G1 G2]. split; [intros i c Hk Hs; apply Hkn in Hk; now apply (G1 i c Hk)|]. apply log_ok_cons; [exact G2|]. intros id c t E. now destruct (H2 id c t).
    - intros U i Hi Hb. now apply U.
    - intros P i Hk. apply (P i). now apply Hkn.
  Qed.
  Lemma exit_full id s c st st' r : handle_exit id s c st = (st', r) -> good st ->
    good st' /\ (unborn None st -> unborn None st') /\ (prepared st -> prepared st') /\ t_dbg st' = t_dbg st /\ (forall i, known_process (t_log st') i -> known_process (t_log st) i).
  Proof.
    intros H G. unfold StraceModel.handle_exit in H. unfold tbind at 1, tget in H.
    match type of H with tbind ?m ?f st = _ => assert (forall st1 r1, m st = (st1, r1) -> good st1 /\ (unborn None st -> unborn None st1) /\ (prepared st -> prepared st1) /\ t_dbg st1 = t_dbg st /\ (forall i, known_process (t_log st1) i -> known_process (t_log st) i)) as Hm end.
    { intros st1 r1 E. destruct (ss_syscall (state_of st id)) as [c0|] eqn:Es; [|injection E as <- _; auto]. destruct (_ && _); [|injection E as <- _; auto].
      apply (show_full id c0 None st st1 r1 E); [|exact G]. intros Hk. now apply (proj1 G id c0 Hk). }
    apply tbind_cases in H as [(st1 & u & E & H)|(x & E & ->)].
    - destruct (Hm _ _ E) as (M1 & M2 & M3 & M4 & M5). unfold tlog in H. injection H as <- _.
      match goal with |- good (TState _ _ _ (?y :: _) _) /\ _ => destruct (line_full y None st1) as (L1 & L2 & L3); [discriminate|discriminate|] end.
      split; [now apply L1|]. split; [intros U; now apply L2, M2|]. split; [intros P; now apply L3, M3|]. split; [exact M4|]. intros i Hk. apply M5. apply known_other in Hk; [exact Hk|discriminate].
    - exact (Hm _ _ E).
  Qed.

  (** state.event() *)
  Lemma state_event_full f id st st' r : state_event f id st = (st', r) -> full st ->
    good st' /\ unborn (Some id) st' /\ prepared st' /\ t_log st' = t_log st /\ (forall c, r = Ret (Some c) -> known_process (t_log st') id -> fine c).
  Proof.
    intros H ((G1 & G2) & U & P). unfold StraceModel.state_event in H. destruct (ss_event _ _ _ _ _ _ _ _ _ _ _ _ _) as [[s d] r'] eqn:E. injection H as <- ->.
    pose proof (event_grows _ _ _ _ _ _ _ _ _ _ E) as Hd. change (set_sys (set_dbg st d) (dset Nat.eqb id s (t_sys st))) with (set_sys (set_dbg st d) (dset Nat.eqb id s (t_sys (set_dbg st d)))).
    assert (known_process (t_log st) id -> (forall c, ss_syscall s = Some c -> fine c) /\ (forall c, r = Ret (Some c) -> fine c)) as He.
    { intros Hk. rewrite (P id Hk) in E. eapply event_fine; [exact E|]. intros c Hc. now apply (G1 id c Hk). }
    split; [split|split; [|split; [|split]]].
    - intros i c Hk Hc. rewrite state_set in Hc. destruct (Nat.eqb_spec i id) as [->|Hne]; [exact (proj1 (He Hk) c Hc)|exact (G1 i c Hk Hc)].
    - exact G2.
    - intros i Hi Hb. rewrite state_set. destruct (Nat.eqb_spec i id) as [->|Hne]; [congruence|]. apply U; [|discriminate]. cbn in Hi. lia.
    - intros i Hk. now apply (P i).
    - reflexivity.
    - intros c Hc Hk. exact (proj2 (He Hk) c Hc).
  Qed.
  Lemma syscall_full f id st st' r : handle_syscall f id st = (st', r) -> full st -> good st' /\ (r = Ret tt -> full st').
  Proof.
    intros H F. unfold StraceModel.handle_syscall, tbind at 1 in H. destruct (state_event f id st) as [st1 [r1|x]] eqn:E1.
    2:{ injection H as <- <-. apply state_event_full in E1 as (G & _); [|exact F]. split; [exact G|discriminate]. }
    apply state_event_full in E1 as (G & U & P & L & Hc); [|exact F].
    match type of H with tbind ?m ?f st1 = _ => assert (forall st2 r2, m st1 = (st2, r2) -> good st2 /\ unborn (Some id) st2 /\ prepared st2) as Hm end.
    { intros st2 r2 E. destruct r1 as [c|]; [|injection E as <- _; auto]. destruct (_ || _); [|injection E as <- _; auto].
      destruct (show_full id c (Some id) st1 st2 r2 E) as (S1 & S2 & S3 & _); auto. }
    apply tbind_cases in H as [(st2 & u & E & H)|(x & E & ->)].
    - destruct (Hm _ _ E) as (M1 & M2 & M3). pose proof (quiet_syscall _ _ _ _ _ H) as Q. split; [eapply quiet_good; eassumption|]. intros ->.
      split; [eapply quiet_good; eassumption|]. split; [|eapply quiet_prepared; eassumption]. intros i Hi _.
      assert (Some id <> Some i) as Hne.
      { intros [= ->]. apply proc_syscall_ok in H as (q & Hq & _ & Hd & _). assert (i < procs_count (t_dbg st2))%nat by (apply nth_error_Some; congruence). destruct Q as (_ & _ & _ & Q). lia. }
      exact (quiet_unborn _ _ _ Q M2 i Hi Hne).
    - destruct (Hm _ _ E) as (M1 & _). split; [exact M1|discriminate].
  Qed.
  Lemma new_full id st st' r : handle_new id st = (st', r) -> full st -> ss_syscall (state_of st id) = None -> good st' /\ (r = Ret tt -> full st').
  Proof.
    intros H ((G1 & G2) & U & P) Hs. unfold StraceModel.handle_new in H. unfold tbind at 1, tget in H. unfold tbind at 1, tlog in H.
    match type of H with _ ?s = _ => set (st1 := s) in * end.
    assert (good st1) as Hg.
    { split.
      - intros i c Hk Hc. destruct (Nat.eq_dec i id) as [->|Hne]; [change (state_of st1 id) with (state_of st id) in Hc; congruence|].
        apply known_other in Hk; [now apply (G1 i c Hk)|]. congruence.
      - apply log_ok_cons; [exact G2|discriminate]. }
    assert (unborn None st1) as Hu by (intros i Hi Hb; now apply U).
    assert (forall i, known_process (t_log st1) i -> i = id \/ known_process (t_log st) i) as Hkn.
    { intros i Hk. destruct (Nat.eq_dec i id) as [->|Hne]; [now left|]. right. apply known_other in Hk; [exact Hk|congruence]. }
    unfold tbind at 1, prepareProcess in H. unfold tbind at 1 in H. destruct (proc_syscall p K id 0 st1) as [st2 [u|x]] eqn:E2.
    2:{ injection H as <- <-. split; [|discriminate]. eapply quiet_good; [eapply quiet_syscall; exact E2|exact Hg]. }
    pose proof (quiet_syscall _ _ _ _ _ E2) as Q2. unfold set_ready in H. match type of H with _ ?s = _ => set (st3 := s) in * end.
    assert (quiet st1 st3) as Q3.
    { destruct Q2 as (Q21 & Q22 & Q23 & Q24). repeat split; [exact Q21|exact Q22| |exact Q24]. intros i Hi. unfold is_ready. cbn. apply orb_true_iff. right. apply (Q23 i Hi). }
    assert (full st3) as F3.
    { split; [eapply quiet_good; eassumption|]. split; [eapply quiet_unborn; eassumption|]. intros i Hk. destruct Q2 as (_ & Q22 & Q23 & _). cbn in Hk. rewrite Q22 in Hk.
      apply Hkn in Hk as [->|Hk]; [unfold is_ready; cbn; now rewrite Nat.eqb_refl|]. unfold is_ready. cbn. apply orb_true_iff. right. apply (Q23 i). exact (P i Hk). }
    unfold tbind in H. destruct (tdbg (get_proc id) st3) as [st4 [q|x]] eqn:E4.
    - pose proof (quiet_get_proc _ _ _ _ E4) as Q4. apply (quiet_full _ _ Q4) in F3. destruct (pr_parent q).
      + apply quiet_syscall in H. apply (quiet_full _ _ H) in F3. split; [apply F3|auto].
      + injection H as <- <-. split; [apply F3|discriminate].
    - pose proof (quiet_get_proc _ _ _ _ E4) as Q4. apply (quiet_full _ _ Q4) in F3. injection H as <- <-. split; [apply F3|discriminate].
  Qed.
  Lemma execution_full id st st' r : handle_execution p K id st = (st', r) -> full st -> full st'.
  Proof.
    intros H F. unfold handle_execution in H. unfold tbind at 1, tget in H. unfold tbind at 1, tlog in H. apply quiet_syscall in H. eapply quiet_full; [exact H|].
    destruct F as (G & U & P). match goal with |- full (TState _ _ _ (?y :: _) _) => destruct (line_full y None st) as (L1 & L2 & L3); [discriminate|discriminate|] end.
    split; [now apply L1|]. split; [now apply L2|now apply L3].
  Qed.
  Lemma round_full f code st st' r : round f code st = (st', r) -> full st -> good st' /\ (forall x, r = Ret x -> full st').
  Proof.
    intros H F.
    assert (forall raised ev st1 (r1 : out event), tdbg (waitSyscall K p f None) st = (st1, r1) -> r1 = (if raised : bool then Raise (XEvent ev) else Ret ev) ->
      handle_event f code raised ev (TState (t_dbg st1) (t_sys st1) (t_ready st1) (t_log st1) ((raised, ev) :: t_seen st1)) = (st', r) -> good st' /\ (forall x, r = Ret x -> full st')) as Hh.
    { intros raised ev st1 r1 Hw Hr1 He. pose proof (quiet_wait _ _ _ _ Hw) as Q. pose proof (quiet_full _ _ Q F) as F1.
      set (st2 := TState (t_dbg st1) (t_sys st1) (t_ready st1) (t_log st1) ((raised, ev) :: t_seen st1)) in *. assert (full st2) as F2 by exact F1.
      unfold StraceModel.handle_event in He. destruct raised, ev as [id s c|id|id|s id].
      - unfold tbind in He. destruct (handle_exit id s c st2) as [st3 [u|x]] eqn:E; apply exit_full in E as (X1 & X2 & X3 & _); try apply F2; injection He as <- <-.
        + split; [exact X1|]. intros _ _. split; [exact X1|]. split; [apply X2, F2|apply X3, F2].
        + split; [exact X1|discriminate].
      - unfold tbind in He. destruct (handle_execution p K id st2) as [st3 [u|x]] eqn:E; apply execution_full in E; auto; injection He as <- <-; (split; [apply E|auto]).
      - assert (ss_syscall (state_of st2 id) = None) as Hs.
        { destruct F as (_ & U & _). change (state_of st2 id) with (state_of st1 id). unfold state_of. destruct Q as (-> & _). fold (state_of st id). apply U; [|discriminate].
          destruct (wait_seen p K f st st1 r1 Hw) as (_ & _ & _ & _ & Hw'). rewrite waitSyscall_eq in Hw'.
          destruct (fresh_waitSignals K p f [if d_sysgood (t_dbg st) then 133 else 5] None (t_dbg st)) as [_ Hf]. rewrite Hw' in Hf. cbn [snd] in Hf. apply Hf. rewrite Hr1. reflexivity. }
        unfold tbind in He. destruct (handle_new id st2) as [st3 [[]|x]] eqn:E; apply new_full in E as [E1 E2]; auto; injection He as <- <-; (split; [exact E1|]); [auto|discriminate].
      - unfold tbind in He. destruct (tdbg (request K (KDisplay id s)) st2) as [st3 [u|x]] eqn:E; apply quiet_request in E; apply (quiet_full _ _ E) in F2.
        + destruct (proc_syscall p K id s st3) as [st4 [v|x]] eqn:E4; apply quiet_syscall in E4; apply (quiet_full _ _ E4) in F2; injection He as <- <-; (split; [apply F2|auto]).
        + injection He as <- <-. split; [apply F2|auto].
      - injection He as <- <-. split; [apply F2|auto].
      - injection He as <- <-. split; [apply F2|auto].
      - injection He as <- <-. split; [apply F2|auto].
      - unfold tbind in He. destruct (handle_syscall f id st2) as [st3 [[]|x]] eqn:E; apply syscall_full in E as [E1 E2]; auto; injection He as <- <-; (split; [exact E1|]); [auto|discriminate]. }
    destruct r as [x|x].
    - apply round_split in H as (raised & ev & st1 & Hw & He). destruct raised; [eapply (Hh true)|eapply (Hh false)]; eauto.
    - apply round_raise in H as [(e & -> & Hw)|(raised & ev & st1 & Hw & He)].
      + apply quiet_wait in Hw. apply (quiet_full _ _ Hw) in F. split; [apply F|discriminate].
      + destruct raised; [eapply (Hh true)|eapply (Hh false)]; eauto.
  Qed.
  Lemma loop_full rounds f : forall code st st' r, trace_loop rounds f code st = (st', r) -> full st -> good st'.
  Proof.
    induction rounds as [|rounds IH]; intros code st st' r; cbn [StraceModel.trace_loop].
    - intros [= <- _] F. apply F.
    - intros H F. unfold tbind at 1, tget in H. destruct (d_list (t_dbg st)); [injection H as <- _; apply F|]. unfold tbind in H. destruct (round f code st) as [st1 [c|x]] eqn:E.
      + apply round_full in E as [_ E]; [|exact F]. eapply IH; [exact H|]. now apply (E c).
      + injection H as <- _. apply round_full in E as [E _]; [exact E|exact F].
  Qed.

  (** *** The whole program *)
  (** Before anything is traced *)
  Definition blank (st : tstate) : Prop :=
    t_sys st = [] /\ forall x, In x (t_log st) -> (forall id t, x <> LNewProcess id t) /\ (forall id c t, x <> LSyscall id c t).
  Lemma blank_good st : blank st -> good st.
  Proof.
    intros [B1 B2]. split.
    - intros id c _ H. unfold state_of in H. rewrite B1 in H. discriminate H.
    - intros after before id c t E _. exfalso. assert (In (LSyscall id c t) (t_log st)) as Hin by (rewrite E; apply in_app_iff; right; now left).
      now apply (proj2 (B2 _ Hin) id c t).
  Qed.
  Lemma blank_known st id : blank st -> known_process (t_log st) id -> id = O.
  Proof. intros [_ B2] [H|(t & H)]; [exact H|]. destruct (B2 _ H) as [B3 _]. now destruct (B3 id t). Qed.
  Lemma trace_good rounds f st st' r : syscallTrace rounds f O st = (st', r) -> blank st -> good st'.
  Proof.
    intros H B. unfold StraceModel.syscallTrace, prepareProcess in H. unfold tbind at 1 in H. unfold tbind at 1 in H. destruct (proc_syscall p K O 0 st) as [st1 [u|x]] eqn:E.
    - pose proof (quiet_syscall _ _ _ _ _ E) as Q. unfold set_ready in H. eapply loop_full; [exact H|].
      pose proof (quiet_good _ _ Q (blank_good _ B)) as G. split; [exact G|]. destruct Q as (Q1 & Q2 & _). destruct B as [B1 B2]. split.
      + intros i _ _. unfold state_of. cbn. rewrite Q1, B1. reflexivity.
      + intros i Hk. cbn in Hk. rewrite Q2 in Hk. apply blank_known in Hk; [|now split]. subst i. reflexivity.
    - injection H as <- _. eapply quiet_good; [eapply quiet_syscall; exact E|now apply blank_good].
  Qed.
  (** What happens before the first process is traced leaves no trace of calls *)
  Definition blanks {A} (m : TM A) : Prop := forall st, blank st -> procs_count (t_dbg st) = O -> blank (fst (m st)) /\ (forall a, snd (m st) = Ret a -> procs_count (t_dbg (fst (m st))) = O).
  Lemma blanks_bind {A B} (m : TM A) (f : A -> TM B) : blanks m -> (forall a, blanks (f a)) -> blanks (tbind m f).
  Proof.
    intros Hm Hf st Bl C. unfold tbind. destruct (Hm st Bl C) as [H1 H2]. destruct (m st) as [s [a|x]]; cbn [fst snd] in *; [apply (Hf a s H1), (H2 a eq_refl)|].
    split; [exact H1|discriminate].
  Qed.
  Lemma blanks_ret {A} (a : A) : blanks (tret a). Proof. intros st B C. cbn. auto. Qed.
  Lemma blanks_throw {A} x : blanks (@tthrow A x). Proof. intros st B C. cbn. split; [exact B|discriminate]. Qed.
  Lemma blanks_res {A} (r : res A) : blanks (tres r). Proof. intros st B C. cbn. auto. Qed.
  Lemma blanks_log x : (forall id t, x <> LNewProcess id t) -> (forall id c t, x <> LSyscall id c t) -> blanks (tlog x).
  Proof. intros H1 H2 st [B1 B2] C. cbn. split; [|auto]. split; [exact B1|]. intros y [<-|Hy]; [auto|now apply B2]. Qed.
  Lemma blanks_dbg {A} (m : D A) : (forall d, d_procs (fst (m d)) = d_procs d) -> blanks (tdbg m).
  Proof. intros Hm st [B1 B2] C. unfold tdbg. specialize (Hm (t_dbg st)). destruct (m (t_dbg st)) as [d r]. cbn in *. split; [split; auto|]. intros _ _. congruence. Qed.
  Lemma blanks_try {A} (m : TM A) h : blanks m -> (forall x st, blank st -> blank (fst (h x st)) /\ forall a, snd (h x st) <> Ret a) -> blanks (ttry m h).
  Proof.
    intros Hm Hh st B C. unfold ttry. destruct (Hm st B C) as [H1 H2]. destruct (m st) as [s [a|x]]; cbn [fst snd] in *; [auto|]. destruct (Hh x s H1) as [H3 H4].
    split; [exact H3|]. intros a Ha. now destruct (H4 a).
  Qed.
  Lemma blanks_setup : blanks (setupDebugger p o).
  Proof.
    unfold setupDebugger. apply blanks_bind; [|intros _; apply blanks_bind; [|intros _]].
    - destruct (s_fork o); [|apply blanks_ret]. apply blanks_try.
      + apply blanks_dbg. intros d. unfold traceFork. repeat match goal with |- context [if ?b then _ else _] => destruct b end; reflexivity.
      + intros x st B. destruct x as [e|ev]; [|cbn; split; [exact B|discriminate]]. destruct e; cbn; try (split; [exact B|discriminate]).
        split; [|discriminate]. destruct B as [B1 B2]. split; [exact B1|]. intros y [<-|Hy]; [split; discriminate|now apply B2].
    - destruct (s_trace_exec o); [|apply blanks_ret]. apply blanks_dbg. intros d. unfold traceExec. repeat match goal with |- context [if ?b then _ else _] => destruct b end; reflexivity.
    - destruct (s_trace_clone o); [|apply blanks_ret]. apply blanks_dbg. intros d. unfold traceClone. repeat match goal with |- context [if ?b then _ else _] => destruct b end; reflexivity.
  Qed.
  Lemma blanks_child : blanks (createChild o child).
  Proof.
    unfold createChild. apply blanks_bind; [apply blanks_res|intros pid]. apply blanks_bind; [apply blanks_res|intros x].
    apply blanks_bind; [apply blanks_log; discriminate|intros _]. apply blanks_ret.
  Qed.
  Lemma blank_dbg {A} (m : D A) st : blank st -> blank (fst (tdbg m st)).
  Proof. intros [B1 B2]. unfold tdbg. destruct (m (t_dbg st)) as [d r]. split; [exact B1|exact B2]. Qed.
  Lemma blank_line x st : blank st -> (forall id t, x <> LNewProcess id t) -> (forall id c t, x <> LSyscall id c t) -> blank (fst (tlog x st)).
  Proof. intros [B1 B2] H1 H2. split; [exact B1|]. intros y [<-|Hy]; [auto|now apply B2]. Qed.
  Lemma create_blank f st st' r : createProcess p K o child f st = (st', r) -> blank st -> procs_count (t_dbg st) = O ->
    blank st' /\ (forall id, r = Ret (Some id) -> id = O).
  Proof.
    intros H B C. unfold createProcess in H. apply tbind_cases in H as [(st1 & pa & E & H)|(x & E & ->)].
    - assert (blank st1 /\ procs_count (t_dbg st1) = O) as [B1 C1].
      { match type of E with ?m st = _ => assert (blanks m) as Hm end.
        { destruct (s_pid o) as [pid|]; [destruct (pid =? 0)|]; (apply blanks_bind; [first [apply blanks_child|apply blanks_log; discriminate]|intros; apply blanks_ret]). }
        destruct (Hm st B C) as [H1 H2]. rewrite E in H1, H2. cbn in H1, H2. split; [exact H1|]. now apply (H2 pa). }
      unfold ttry in H. unfold tbind at 1 in H. unfold tdbg in H. pose proof (blank_dbg (addProcess K p f (fst pa) (snd pa) None false) st1 B1) as B2. unfold tdbg in B2.
      destruct (addProcess K p f (fst pa) (snd pa) None false (t_dbg st1)) as [d [id|x]] eqn:Ea; cbn [fst] in B2.
      + cbn in H. injection H as <- <-. split; [exact B2|]. intros i [= <-]. apply add_returns in Ea as [-> _]. exact C1.
      + assert (forall y, let r0 := tthrow y (set_dbg st1 d) in blank (fst r0) /\ forall id, snd r0 <> @Ret (option nat) (Some id)) as Ht by (intros y; split; [exact B2|discriminate]).
        assert (let r0 := tbind (tlog (LError x)) (fun _ => tret (@None nat)) (set_dbg st1 d) in blank (fst r0) /\ forall id, snd r0 <> Ret (Some id)) as Hl.
        { split; [|discriminate]. cbn. apply blank_line; [exact B2|discriminate|discriminate]. }
        destruct x as [e|ev].
        * destruct (ptrace_errno e) as [n|]; [destruct Hl as [Hl1 Hl2]; rewrite H in Hl1, Hl2|destruct (Ht (XErr e)) as [Hl1 Hl2]; rewrite H in Hl1, Hl2]; cbn in Hl1, Hl2; (split; [exact Hl1|]); intros id Hid; now destruct (Hl2 id).
        * destruct ev as [i s c|i|i|s i];
            [destruct Hl as [Hl1 Hl2]|destruct (Ht (XEvent (ProcessExecution i))) as [Hl1 Hl2]|destruct (Ht (XEvent (NewProcessEvent i))) as [Hl1 Hl2]|destruct (Ht (XEvent (ProcessSignal s i))) as [Hl1 Hl2]];
            rewrite H in Hl1, Hl2; cbn in Hl1, Hl2; (split; [exact Hl1|]); intros id Hid; now destruct (Hl2 id).
    - split; [|discriminate]. match type of E with ?m st = _ => assert (blanks m) as Hm end.
      { destruct (s_pid o) as [pid|]; [destruct (pid =? 0)|]; (apply blanks_bind; [first [apply blanks_child|apply blanks_log; discriminate]|intros; apply blanks_ret]). }
      destruct (Hm st B C) as [H1 _]. rewrite E in H1. exact H1.
  Qed.
  Lemma run_good rounds f st st' r : runDebugger p ns repr_fs errorcode strerror K stops o only child rounds f st = (st', r) -> blank st -> procs_count (t_dbg st) = O -> good st'.
  Proof.
    intros H B C. unfold runDebugger in H. destruct (blanks_setup st B C) as [B1 C1]. apply tbind_cases in H as [(st1 & u & E & H)|(x & E & ->)]; rewrite E in B1, C1; cbn in B1, C1; [|now apply blank_good].
    specialize (C1 u eq_refl). apply tbind_cases in H as [(st2 & pr & E2 & H)|(x & E2 & ->)]; apply create_blank in E2 as [B2 Hid]; auto; [|now apply blank_good].
    destruct pr as [id|]; [|injection H as <- _; now apply blank_good]. rewrite (Hid id eq_refl) in H.
    apply tbind_cases in H as [(st3 & code & E3 & H)|(x & E3 & ->)]; apply trace_good in E3; auto. now injection H as <- _.
  Qed.
  Lemma good_log_error x st : good st -> good (fst (tlog (LError x) st)).
  Proof. intros G. destruct (line_full (LError x) None st) as (L & _); [discriminate|discriminate|]. now apply L. Qed.
  Lemma good_dbg {A} (m : D A) st : good st -> good (fst (tdbg m st)).
  Proof. intros [G1 G2]. unfold tdbg. destruct (m (t_dbg st)). split; [exact G1|exact G2]. Qed.
  Lemma main_good rounds f st' r : strace_main p ns repr_fs errorcode strerror K stops o only child rounds f (start p) = (st', r) -> good st'.
  Proof.
    intros H. unfold strace_main, main_of in H.
    match type of H with tbind ?m ?g _ = _ => assert (good (fst (m (start p)))) as Hm end.
    { unfold ttry. destruct (runDebugger p ns repr_fs errorcode strerror K stops o only child rounds f (start p)) as [st1 r1] eqn:E. apply run_good in E; [|split; [reflexivity|intros x []]|cbn; unfold new_debugger, enableSysgood; now destruct (negb (has_ptrace_events p))].
      destruct r1 as [c|x]; [exact E|]. assert (forall y (c : option Z), good (fst (tbind (tlog (LError y)) (fun _ => tret c) st1))) as Hle.
      { intros y c. exact (good_log_error y st1 E). }
      destruct x as [e|ev].
      - destruct (ptrace_errno e) as [n|]; [apply Hle|]. destruct e; try apply Hle; try exact E.
        cbn. match goal with |- good (TState _ _ _ (?y :: _) _) => destruct (line_full y None st1) as (L & _); [discriminate|discriminate|] end. now apply L.
      - destruct ev as [id s c|id|id|s id]; try apply Hle. unfold tbind. destruct (handle_exit id s c st1) as [st2 [u|x]] eqn:Ee; apply exit_full in Ee as (G & _); auto. }
    apply tbind_cases in H as [(st1 & code & E & H)|(x & E & ->)]; rewrite E in Hm; cbn [fst] in Hm; [|exact Hm].
    apply tbind_cases in H as [(st2 & u & E2 & H)|(x & E2 & ->)]; apply (good_dbg (quit K p f)) in Hm; rewrite E2 in Hm; cbn [fst] in Hm; [|exact Hm]. now injection H as <- _.
  Qed.
End Filter.
