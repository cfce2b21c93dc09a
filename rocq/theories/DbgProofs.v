From Coq Require Import ZArith List Ascii String Bool Lia.
From Verif Require Import PyBase PyFacts Platform DbgModel DbgSpec.
Import ListNotations.
Open Scope Z_scope.

Lemma nth_upd_nth {A} (l : list A) n f i : nth_error (upd_nth n f l) i =
  if (i =? n)%nat then option_map f (nth_error l i) else nth_error l i.
Proof.
  revert n i; induction l as [|y l IH]; intros n i.
  - destruct n; cbn; destruct i; cbn; try reflexivity. now destruct (i =? n)%nat.
  - destruct n as [|n], i as [|i]; cbn [upd_nth nth_error]; try reflexivity. rewrite IH. reflexivity.
Qed.
Lemma upd_nth_length {A} n f (l : list A) : List.length (upd_nth n f l) = List.length l.
Proof. revert n; induction l; intros [|n]; cbn; auto. Qed.

(** ** Elementary state changes *)
Definition upd (st : dstate) (id : nat) (f : proc -> proc) : dstate := set_procs st (upd_nth id f (d_procs st)).
Definition drop (st : dstate) (id : nat) (pid : Z) : dstate :=
  set_reg st (ddel Z.eqb pid (d_dict st)) (remove_first id (d_list st)).
Definition enrol (st : dstate) (q : proc) : dstate :=
  let id := List.length (d_procs st) in
  set_reg (set_procs st (d_procs st ++ [q])) (dset Z.eqb (pr_pid q) id (d_dict st)) (d_list st ++ [id]).

Section Ticks.
  (** Which requests may be made in which state. *)
  Context (P : dstate -> kcall -> Prop).
  Inductive tick : dstate -> dstate -> Prop :=
  | t_call st c : P st c -> (forall id pid, c <> KDetach id pid) -> tick st (add_call st c)
  | t_stopped st id b : tick st (upd st id (set_stopped b))
  | t_exited st id : tick st (upd st id (set_exited true))
  | t_dead st id : tick st (upd st id (set_running false))
  | t_unattach st id : tick st (upd st id (set_attached false))
  | t_new st q : dmem Z.eqb (pr_pid q) (d_dict st) = false -> pr_is_attached q = true -> tick st (enrol st q)
  | t_detach st id q : nth_error (d_procs st) id = Some q -> pr_is_attached q = true -> pr_running q = true ->
      tick st (drop (add_call (upd st id (set_attached false)) (KDetach id (pr_pid q))) id (pr_pid q))
  | t_detach_fails st id q : nth_error (d_procs st) id = Some q -> pr_is_attached q = true -> pr_running q = true ->
      tick st (add_call (upd st id (set_attached false)) (KDetach id (pr_pid q)))
  | t_detach_dead st id q : nth_error (d_procs st) id = Some q -> pr_is_attached q = true -> pr_running q = false ->
      tick st (drop (upd st id (set_attached false)) id (pr_pid q)).
  Inductive ticks : dstate -> dstate -> Prop :=
  | ticks_refl st : ticks st st
  | ticks_step st st1 st2 : tick st st1 -> ticks st1 st2 -> ticks st st2.
  Lemma ticks_one st st' : tick st st' -> ticks st st'.
  Proof. intros. eapply ticks_step; [eassumption|constructor]. Qed.
  Lemma ticks_trans st1 st2 st3 : ticks st1 st2 -> ticks st2 st3 -> ticks st1 st3.
  Proof. induction 1; [auto|]. intros. eapply ticks_step; eauto. Qed.

  Definition within {A} (m : D A) : Prop := forall st, ticks st (fst (m st)).
  Lemma within_ret {A} (a : A) : within (dret a).
  Proof. intros st. constructor. Qed.
  Lemma within_raise {A} e : within (@draise A e).
  Proof. intros st. constructor. Qed.
  Lemma within_throw {A} e : within (@dthrow A e).
  Proof. intros st. constructor. Qed.
  Lemma within_get : within dget_state.
  Proof. intros st. constructor. Qed.
  Lemma within_bind {A B} (m : D A) (f : A -> D B) : within m -> (forall a, within (f a)) -> within (dbind m f).
  Proof.
    intros Hm Hf st. unfold dbind. specialize (Hm st). destruct (m st) as [st1 [a|x]]; cbn in *; [|exact Hm].
    eapply ticks_trans; [exact Hm|apply Hf].
  Qed.
  Lemma within_proc id : within (get_proc id).
  Proof. intros st. unfold get_proc. destruct (nth_error _ _); constructor. Qed.
End Ticks.
Create HintDb within.
#[export] Hint Resolve within_ret within_raise within_throw within_get within_proc : within.
Ltac win := repeat (first [solve [auto with within] | apply within_bind | match goal with |- forall _, _ => intro end
   | match goal with |- within _ (if ?b then _ else _) => destruct b end
   | match goal with |- within _ (match ?b with _ => _ end) => destruct b end ]).

(** What the waiting code may ask; [resume] tells whether it may continue processes. *)
Definition ordinary (resume : bool) (st : dstate) (c : kcall) : Prop :=
  match c with
  | KWait pid _ => pid = -1 \/ dmem Z.eqb pid (d_dict st) = true
  | KCont _ _ s => resume = true /\ s <> SIGTRAP /\ s <> SIGSTOP
  | KSetOptions _ _ o => o = d_options st
  | KEventMsg _ _ | KDisplay _ _ | KSleep _ => True
  | _ => False
  end.

Definition exit_query (q : wquery) : bool := match q with QExit _ => true | _ => false end.

Section Code.
  Context (K : dkernel) (p : platform).
  Section WithP.
    Context (P : dstate -> kcall -> Prop).
    Lemma within_request c : (forall st, P st c) -> (forall id pid, c <> KDetach id pid) -> within P (request K c).
    Proof. intros H1 H2 st. apply ticks_one. now apply t_call. Qed.
    Lemma within_detach id : within P (detach K id).
    Proof.
      intros st. unfold detach, dbind at 1, get_proc at 1. destruct (nth_error (d_procs st) id) as [q|] eqn:En; [|constructor].
      destruct (pr_is_attached q) eqn:Ea; cbn [negb]; [|constructor].
      unfold dbind at 1, upd_proc at 1. fold (upd st id (set_attached false)).
      assert (nth_error (d_procs (upd st id (set_attached false))) id = Some (set_attached false q)) as En'.
      { cbn. rewrite nth_upd_nth, Nat.eqb_refl, En. reflexivity. }
      destruct (pr_running q) eqn:Er.
      - unfold dbind at 1, request. destruct (k_do _ _ _).
        + unfold deleteProcess, dbind, get_proc. cbn [d_procs add_call set_procs upd] in *. rewrite En'. cbn [fst].
          apply ticks_one. exact (t_detach P st id q En Ea Er).
        + cbn [fst]. apply ticks_one. exact (t_detach_fails P st id q En Ea Er).
      - unfold dbind at 1, dret. unfold deleteProcess, dbind, get_proc. rewrite En'. cbn [fst].
        apply ticks_one. exact (t_detach_dead P st id q En Ea Er).
    Qed.
    Lemma within_notRunning id : within P (notRunning K id).
    Proof. apply within_bind; [|intros; apply within_detach]. intros st. apply ticks_one. constructor. Qed.
    Lemma within_cont id s : (forall st pid, P st (KCont id pid (filterSignal s))) -> within P (cont K id s).
    Proof.
      intros H. apply within_bind; [apply within_proc|]. intros q. apply within_bind; [apply within_request; [auto|discriminate]|].
      intros _ st. apply ticks_one. constructor.
    Qed.
  End WithP.

  Hint Resolve within_detach within_notRunning : within.
  Context (resume : bool) (Hresume : running_bsd p = true -> resume = true).
  Let O := ordinary resume.
  Lemma within_waitpid pid b : within O (waitpid_ K p pid b).
  Proof.
    apply within_bind.
    - destruct (pid =? 0) eqn:E0; cbn [negb].
      + intros st. apply ticks_one. apply t_call; [cbn; auto|discriminate].
      + intros st. unfold dbind at 1, dget_state. destruct (dget Z.eqb pid (d_dict st)) eqn:Ed; [|constructor].
        unfold dbind, get_proc. destruct (nth_error _ _); [|constructor]. destruct (_ && _); [constructor|].
        apply ticks_one. apply t_call; [|discriminate]. cbn. right. unfold dmem. now rewrite Ed.
    - intros [x y]. win.
  Qed.
  Hint Resolve within_waitpid : within.
  Section WithRec.
    Context (rec : wquery -> D (option event)) 
      (Hrec : forall q, (exit_query q = true -> resume = true) -> within O (rec q)).
    Lemma Hrec1 pid b : within O (rec (QPid pid b)).
    Proof. apply Hrec. discriminate. Qed.
    Lemma Hrec2 pid b : within O (rec (QAny pid b)).
    Proof. apply Hrec. discriminate. Qed.
    Lemma Hrec3 pid b : within O (rec (wait_event_query pid b)).
    Proof. apply Hrec. destruct pid; discriminate. Qed.
    Hint Resolve Hrec1 Hrec2 Hrec3 : within.
    Lemma within_waitSignals l pid : within O (waitSignals_ rec l pid).
    Proof. unfold waitSignals_. win. Qed.
    Hint Resolve within_waitSignals : within.
    Lemma within_display id s : within O (request K (KDisplay id s)).
    Proof. apply within_request; [easy|discriminate]. Qed.
    Hint Resolve within_display : within.
    (** [P] is [O] extended by the attach request *)
    Lemma within_add (P : dstate -> kcall -> Prop) pid a par th :
      (forall st st', ticks O st st' -> ticks P st st') ->
      (a = false -> forall st, P st (KAttach pid)) ->
      within P (addProcess_ K p rec pid a par th).
    Proof.
      intros Hsub HP st. unfold addProcess_. unfold dbind at 1, dget_state.
      destruct (dmem Z.eqb pid (d_dict st)) eqn:Em; [constructor|].
      unfold dbind at 1.
      assert (exists s1 r, (if a then dret tt else request K (KAttach pid)) st = (s1, r) /\ ticks P st s1 /\
                d_procs s1 = d_procs st /\ d_dict s1 = d_dict st /\ d_list s1 = d_list st) as (s1 & r & E1 & T1 & H1 & H2 & H3).
      { destruct a.
        - exists st, (Ret tt). repeat split; constructor.
        - unfold request. eexists _, _. split; [reflexivity|]. split; [|auto]. apply ticks_one. apply t_call; [auto|discriminate]. }
      rewrite E1. destruct r as [u|x]; [|exact T1]. eapply ticks_trans; [exact T1|]. apply Hsub.
      unfold dbind at 1. rewrite H1. set (q := Proc pid true false a true true th par).
      replace (set_reg (set_procs s1 (d_procs st ++ [q])) (dset Z.eqb pid (List.length (d_procs st)) (d_dict s1)) (d_list s1 ++ [List.length (d_procs st)]))
        with (enrol s1 q) by (unfold enrol; now rewrite H1).
      apply ticks_trans with (enrol s1 q).
      { apply ticks_one. apply t_new; [cbn; rewrite H2; exact Em|reflexivity]. }
      generalize (enrol s1 q). generalize (List.length (d_procs st)). clear - Hrec Hresume. intros id.
      apply within_bind.
      - intros st. pose proof (within_waitSignals [SIGTRAP; SIGSTOP] (Some pid) st) as Hw.
        destruct (waitSignals_ rec [SIGTRAP; SIGSTOP] (Some pid) st) as [s r]; cbn [fst] in Hw.
        destruct r as [ev|x]; [exact Hw|].
        assert (ticks O st (fst (match upd_proc id (set_attached false) s with
                     | (st0, _) => match detach K id st0 with
                         | (st1, Ret _) => (st1, @Raise unit x) | (st1, Raise x') => (st1, Raise x') end end))) as Hbad.
        { unfold upd_proc. fold (upd s id (set_attached false)). eapply ticks_trans; [exact Hw|].
          eapply ticks_step; [apply t_unattach|].
          pose proof (within_detach O id (upd s id (set_attached false))) as Hd.
          destruct (detach K id _) as [s2 [u|x']]; exact Hd. }
        destruct x as [e|ev]; [destruct e; try exact Hbad; exact Hw|].
        destruct ev; try exact Hbad. eapply ticks_trans; [exact Hw|]. apply within_display.
      - intros _. apply within_bind; [|auto with within]. intros st. destruct (has_ptrace_events p && _) eqn:Eh; [|constructor].
        apply andb_prop in Eh as [Eh _]. unfold setoptions, dbind, get_proc. destruct (nth_error _ _); [|constructor].
        rewrite Eh. cbn [negb]. apply ticks_one. apply t_call; [reflexivity|discriminate].
    Qed.
    Lemma within_add_child pid par th : within O (addProcess_ K p rec pid true par th).
    Proof. apply within_add; [auto|discriminate]. Qed.
    Hint Resolve within_add_child : within.
    Lemma within_terminated id : within O (processTerminated K id).
    Proof. unfold processTerminated. win. Qed.
    Hint Resolve within_terminated : within.
    Lemma within_upd_stopped id b : within O (upd_proc id (set_stopped b)).
    Proof. intros st. apply ticks_one. constructor. Qed.
    Lemma within_upd_exited id : within O (upd_proc id (set_exited true)).
    Proof. intros st. apply ticks_one. constructor. Qed.
    Hint Resolve within_upd_stopped within_upd_exited : within.
    Lemma within_msg id pid : within O (ptrace_geteventmsg K id pid).
    Proof. intros st. apply ticks_one. apply t_call; [easy|discriminate]. Qed.
    Hint Resolve within_msg : within.
    Lemma within_status id status : within O (processStatus_ K p rec id status).
    Proof.
      unfold processStatus_, processExited_, processKilled, processSignal, ptraceEvent_. destruct (WIFEXITED status); [|win].
      apply within_bind; [win|]. intros q. apply within_bind; [|win]. destruct (running_bsd p && _) eqn:Eb; [|win].
      apply andb_prop in Eb as [Eb _]. apply within_bind; [win|]. intros _. apply within_bind; [|win]. apply Hrec. auto.
    Qed.
    Hint Resolve within_status : within.
    Lemma within_pid pid b : within O (wait_event_pid_ K p rec pid b).
    Proof.
      intros st. unfold wait_event_pid_. pose proof (within_waitpid pid b st) as Hw.
      destruct (waitpid_ K p pid b st) as [s [[pid' status]|x]]; cbn [fst] in Hw.
      - destruct (_ && _); [exact Hw|]. eapply ticks_trans; [exact Hw|].
        destruct (dget _ _ _); [|apply Hrec1]. apply within_bind; [apply within_status|auto with within].
      - destruct x as [e|ev]; [|exact Hw]. destruct e; try exact Hw. destruct (_ =? _); [|exact Hw].
        destruct (dget _ _ _); [|exact Hw]. eapply ticks_trans; [exact Hw|]. apply within_bind; auto with within.
    Qed.
    Lemma within_poll l : within O (poll rec l).
    Proof. induction l; cbn [poll]; win. Qed.
    Hint Resolve within_poll : within.
    Lemma within_any pause b : within O (wait_any_ K rec pause b).
    Proof.
      apply within_bind; [apply within_get|]. intros st. destruct (map fst (d_dict st)) as [|a [|c l]]; [win|win|].
      apply within_bind; [apply within_poll|]. intros [ev|]; [win|]. destruct b; cbn [negb]; [|win].
      apply within_bind; [apply within_request; [easy|discriminate]|intros; apply Hrec2].
    Qed.
  End WithRec.



  Lemma redeliver_ok s : filterSignal (if (s =? SIGTRAP) || (s =? SIGSTOP) then 0 else s) <> SIGTRAP /\
                         filterSignal (if (s =? SIGTRAP) || (s =? SIGSTOP) then 0 else s) <> SIGSTOP.
  Proof.
    unfold filterSignal, SIGTRAP, SIGSTOP. destruct (s =? 5) eqn:E1, (s =? 19) eqn:E2; cbn; try (split; discriminate).
    rewrite E1. apply Z.eqb_neq in E1, E2. auto.
  Qed.
  Lemma within_wait fuel : forall q, (exit_query q = true -> resume = true) -> within O (wait K p fuel q).
  Proof.
    induction fuel as [|f IH]; intros q Hq; cbn [wait]; [win|]. destruct q as [pid b|pause b|id].
    - now apply within_pid.
    - now apply within_any.
    - specialize (Hq eq_refl). unfold waitExit_. apply within_bind; [win|]. intros q.
      apply within_bind; [apply IH; auto|]. intros [ev|]; [|win]. destruct ev; try solve [win].
      apply within_bind; [|intros; apply IH; auto].
      apply within_cont. intros st pid. split; [exact Hq|]. apply redeliver_ok.
  Qed.
End Code.

Lemma ticks_mono (P Q : dstate -> kcall -> Prop) st st' : (forall s c, P s c -> Q s c) -> ticks P st st' -> ticks Q st st'.
Proof.
  intros H. induction 1 as [|st st1 st2 Ht _ IH]; [constructor|]. eapply ticks_step; [|exact IH].
  destruct Ht; econstructor; eauto.
Qed.

(** Every request but a resume with SIGTRAP. *)
Definition anything (st : dstate) (c : kcall) : Prop :=
  match c with KCont _ _ s | KSyscall _ _ s => s <> SIGTRAP | _ => True end.
Lemma filter_ok s : filterSignal s <> SIGTRAP.
Proof. unfold filterSignal. destruct (s =? SIGTRAP) eqn:E; [discriminate|]. now apply Z.eqb_neq. Qed.
Lemma ordinary_anything b st c : ordinary b st c -> anything st c.
Proof. destruct c; cbn; tauto. Qed.
Section Ops.
  Context (K : dkernel) (p : platform).
  Lemma within_any_wait fuel q : within anything (wait K p fuel q).
  Proof. intros st. eapply ticks_mono; [|apply (within_wait K p true); auto]. intros; eapply ordinary_anything; eassumption. Qed.
  Hint Resolve within_any_wait within_detach within_notRunning : within.
  Lemma within_any_request c : (forall st, anything st c) -> (forall id pid, c <> KDetach id pid) -> within anything (request K c).
  Proof. intros. now apply within_request. Qed.
  Lemma within_any_cont id s : within anything (cont K id s).
  Proof. apply within_cont. intros; apply filter_ok. Qed.
  Lemma within_any_add fuel pid a par th : within anything (addProcess K p fuel pid a par th).
  Proof.
    unfold addProcess. apply (within_add K p true).
    - intros q _. apply within_wait; auto.
    - intros st st'. apply ticks_mono. intros; eapply ordinary_anything; eassumption.
    - easy.
  Qed.
  Lemma within_any_kill id s : within anything (kill K id s).
  Proof. apply within_bind; [win|]. intros. apply within_any_request; [easy|discriminate]. Qed.
  Hint Resolve within_any_cont within_any_add within_any_kill : within.
  Lemma within_any_signals fuel l pid : within anything (waitSignals K p fuel l pid).
  Proof. unfold waitSignals, waitSignals_. win. Qed.
  Hint Resolve within_any_signals : within.
  Lemma within_any_exit fuel id : within anything (waitExit K p fuel id).
  Proof. unfold waitExit. win. Qed.
  Hint Resolve within_any_exit : within.
  Lemma within_any_terminate fuel id w : within anything (terminate K p fuel id w).
  Proof.
    unfold terminate. apply within_bind; [win|]. intros q. destruct (_ || _); [win|]. apply within_bind.
    - intros st. set (m := if pr_is_stopped q then cont K id SIGKILL else kill K id SIGKILL).
      assert (within anything m) as Hm by (unfold m; destruct (pr_is_stopped q); win). specialize (Hm st).
      destruct (m st) as [s [u|[e|ev]]]; cbn [fst] in Hm; try exact Hm.
      destruct (ptrace_errno e) as [[n|]|]; try exact Hm. destruct (n =? ESRCH); exact Hm.
    - intros []; [win|]. destruct (negb w); win.
  Qed.
  Hint Resolve within_any_terminate : within.
  Lemma within_any_quit fuel : within anything (quit K p fuel).
  Proof.
    apply within_bind; [win|]. intros st. generalize (rev (d_list st)). intros l.
    induction l; cbn [quit_loop]; win.
  Qed.

  Lemma op_ticks o st : direct_delete o = false ->
    ticks anything st (run_op K p o st) \/
    (d_procs (run_op K p o st) = d_procs st /\ d_dict (run_op K p o st) = d_dict st /\ d_list (run_op K p o st) = d_list st /\
     d_calls (run_op K p o st) = d_calls st).
  Proof.
    destruct o; intros Hd; try discriminate; cbn [run_op].
    - left. apply within_any_add.
    - left. apply within_any_wait.
    - left. apply within_any_signals.
    - left. apply within_bind; [apply within_get|]. intros s. destruct process; [|apply within_any_signals].
      apply within_bind; [apply within_proc|]. intros; apply within_any_signals.
    - left. apply within_any_exit.
    - left. apply within_any_terminate.
    - left. apply within_any_quit.
    - left. apply within_detach.
    - left. apply within_any_cont.
    - left. apply within_bind; [apply within_proc|]. intros q. destruct (running_openbsd p); [win|].
      apply within_bind; [apply within_any_request; [intros; apply filter_ok|discriminate]|]. intros _ s. apply ticks_one. constructor.
    - left. apply within_bind; [apply within_proc|]. intros q. apply within_any_request; [easy|discriminate].
    - left. apply within_any_kill.
    - left. apply within_bind; [apply within_proc|]. intros q. destruct (negb _); [win|]. apply within_any_request; [easy|discriminate].
    - right. unfold traceFork. destruct (negb _); auto.
    - right. unfold traceExec. destruct (negb _); auto.
    - right. unfold traceClone. destruct (negb _); auto.
    - right. unfold enableSysgood. destruct (negb _); auto.
  Qed.
End Ops.

Lemma NoDup_snoc {A} (l : list A) x : NoDup l -> ~ In x l -> NoDup (l ++ [x]).
Proof.
  intros H Hx. induction H as [|y l Hy H IH]; cbn; [repeat constructor; auto|]. cbn in Hx. constructor; [|apply IH; tauto].
  rewrite in_app_iff. cbn. intuition congruence.
Qed.

(** ** The registry *)
Record reg_inv (st : dstate) : Prop := {
  ri_list : d_list st = map snd (d_dict st);
  ri_keys : NoDup (map fst (d_dict st));
  ri_ids : NoDup (d_list st);
  ri_dict : forall pid id, In (pid, id) (d_dict st) -> exists q, nth_error (d_procs st) id = Some q /\ pr_pid q = pid;
  ri_att : forall id q, nth_error (d_procs st) id = Some q -> pr_is_attached q = true -> In (pr_pid q, id) (d_dict st);
  ri_det : forall id, (detaches id (d_calls st) <= 1)%nat /\
     (forall q, nth_error (d_procs st) id = Some q -> pr_is_attached q = true -> detaches id (d_calls st) = 0%nat) /\
     (nth_error (d_procs st) id = None -> detaches id (d_calls st) = 0%nat)
}.
Lemma detaches_other id c l : is_detach_of id c = false -> detaches id (c :: l) = detaches id l.
Proof. intros H. unfold detaches. cbn. now rewrite H. Qed.

(** flags other than the pid may change freely, [is_attached] may only be cleared *)
Lemma inv_upd st id f : (forall q, pr_pid (f q) = pr_pid q /\ (pr_is_attached (f q) = true -> pr_is_attached q = true)) ->
  reg_inv st -> reg_inv (upd st id f).
Proof.
  intros Hf I. constructor; cbn [upd d_list d_dict d_procs d_calls set_procs].
  - exact (ri_list _ I).
  - exact (ri_keys _ I).
  - exact (ri_ids _ I).
  - intros pid i H. destruct (ri_dict _ I pid i H) as (q & H1 & H2). rewrite nth_upd_nth. destruct (_ =? _)%nat; [|eauto].
    rewrite H1. exists (f q). split; [reflexivity|]. now rewrite (proj1 (Hf q)).
  - intros i q H Ha. rewrite nth_upd_nth in H. destruct (_ =? _)%nat; [|now apply (ri_att _ I)].
    destruct (nth_error (d_procs st) i) as [q'|] eqn:E; [|discriminate]. injection H as <-. destruct (Hf q') as [H1 H2].
    rewrite H1. apply (ri_att _ I); auto.
  - intros i. destruct (ri_det _ I i) as (H1 & H2 & H3). split; [exact H1|]. split.
    + intros q H Ha. rewrite nth_upd_nth in H. destruct (_ =? _)%nat; [|eapply H2; eauto].
      destruct (nth_error (d_procs st) i) as [q'|] eqn:E; [|discriminate]. injection H as <-. eapply H2; eauto. now apply Hf.
    + intros H. rewrite nth_upd_nth in H. destruct (_ =? _)%nat; [|auto].
      destruct (nth_error (d_procs st) i) eqn:E; [discriminate|auto].
Qed.
Lemma inv_call st c : (forall id pid, c <> KDetach id pid) -> reg_inv st -> reg_inv (add_call st c).
Proof.
  intros Hc I. constructor; cbn [add_call d_list d_dict d_procs d_calls]; try apply I.
  intros i. rewrite (detaches_other i c) by (destruct c; try reflexivity; exfalso; eapply Hc; reflexivity). apply (ri_det _ I).
Qed.
Lemma remove_map_fst (d : list (Z * nat)) pid id : NoDup (map fst d) -> NoDup (map snd d) -> In (pid, id) d ->
  remove_first id (map snd d) = map snd (ddel Z.eqb pid d).
Proof.
  induction d as [|[k v] d IH]; cbn; [easy|]. intros N1 N2 Hin. inversion N1; inversion N2; subst.
  destruct (pid =? k) eqn:Ek; [apply Z.eqb_eq in Ek; subst k|].
  - destruct Hin as [[= ->]|Hin]; [now rewrite Nat.eqb_refl|].
    exfalso. apply H1. apply in_map_iff. exists (pid, id). auto.
  - destruct Hin as [[= -> ->]|Hin]; [rewrite Z.eqb_refl in Ek; discriminate|].
    destruct (Nat.eqb v id) eqn:Ev; [|cbn; f_equal; auto].
    apply Nat.eqb_eq in Ev. subst v. exfalso. apply H5. apply in_map_iff. exists (pid, id). auto.
Qed.
Lemma in_ddel (d : list (Z * nat)) pid k v : NoDup (map fst d) -> In (k, v) (ddel Z.eqb pid d) <-> In (k, v) d /\ k <> pid.
Proof.
  induction d as [|[a i'] d IH]; cbn; [tauto|]. intros Hnd. inversion Hnd; subst.
  destruct (pid =? a) eqn:Ea.
  - apply Z.eqb_eq in Ea. subst a. split.
    + intros H. split; [now right|]. intros ->. apply H1. apply in_map_iff. exists (pid, v). auto.
    + intros [[[= <- <-]|H] Hne]; [congruence|exact H].
  - cbn. rewrite IH by auto. apply Z.eqb_neq in Ea. split.
    + intros [[= <- <-]|[H Hne]]; [split; [now left|congruence]|split; [now right|exact Hne]].
    + intros [[[= <- <-]|H] Hne]; [now left|right; auto].
Qed.
Lemma NoDup_ddel (d : list (Z * nat)) pid : NoDup (map fst d) -> NoDup (map fst (ddel Z.eqb pid d)).
Proof.
  induction d as [|[a i] d IH]; cbn; intros H; [constructor|]. inversion H; subst.
  destruct (_ =? _); auto. cbn. constructor; auto. intros Hc. apply H2.
  apply in_map_iff in Hc as ([k v] & E & Hc). cbn in E. subst k. apply in_ddel in Hc as [Hc _]; auto. apply in_map_iff. exists (a, v). auto.
Qed.
Lemma NoDup_ddel_snd (d : list (Z * nat)) pid : NoDup (map snd d) -> NoDup (map snd (ddel Z.eqb pid d)).
Proof.
  induction d as [|[a i] d IH]; cbn; intros H; [constructor|]. inversion H; subst.
  destruct (_ =? _); auto. cbn. constructor; auto. intros Hc. apply H2.
  clear - Hc. induction d as [|[a' i'] d IH]; cbn in *; [easy|]. destruct (pid =? a'); [now right|]. cbn in Hc. destruct Hc; auto.
Qed.
(** dropping a registered process that is no longer attached *)
Lemma inv_drop st id q : reg_inv st -> nth_error (d_procs st) id = Some q -> pr_is_attached q = false ->
  In (pr_pid q, id) (d_dict st) -> reg_inv (drop st id (pr_pid q)).
Proof.
  intros I Hq Ha Hin. constructor; cbn [drop set_reg d_list d_dict d_procs d_calls].
  - rewrite (ri_list _ I). apply remove_map_fst; [apply I| |exact Hin]. rewrite <- (ri_list _ I). apply I.
  - apply NoDup_ddel. apply I.
  - rewrite (ri_list _ I). rewrite (remove_map_fst _ (pr_pid q)); [|apply I| |exact Hin].
    + apply NoDup_ddel_snd. rewrite <- (ri_list _ I). apply I.
    + rewrite <- (ri_list _ I). apply I.
  - intros pid i H. apply in_ddel in H as [H _]; [|apply I]. now apply (ri_dict _ I).
  - intros i q' H Ha'. apply in_ddel; [apply I|]. pose proof (ri_att _ I i q' H Ha') as Hin'. split; [exact Hin'|].
    intros Ec. rewrite Ec in Hin'. pose proof (dget_NoDup_In Z.eqb Z.eqb_eq _ _ _ (ri_keys _ I) Hin) as E1.
    pose proof (dget_NoDup_In Z.eqb Z.eqb_eq _ _ _ (ri_keys _ I) Hin') as E2. congruence.
  - apply (ri_det _ I).
Qed.
Lemma tick_inv P st st' : tick P st st' -> reg_inv st -> reg_inv st'.
Proof.
  destruct 1 as [st c Hc Hd|st id b|st id|st id|st id|st q Hm Ha|st id q Hq Ha Hr|st id q Hq Ha Hr|st id q Hq Ha Hr]; intros I.
  - now apply inv_call.
  - apply inv_upd; auto.
  - apply inv_upd; auto.
  - apply inv_upd; auto.
  - apply inv_upd; [|auto]. split; [auto|discriminate].
  - set (id := List.length (d_procs st)).
    assert (~ In (pr_pid q) (map fst (d_dict st))) as Hnew.
    { unfold dmem in Hm. destruct (dget Z.eqb (pr_pid q) (d_dict st)) eqn:E; [discriminate|].
      apply (dget_None Z.eqb Z.eqb_eq) in E. exact E. }
    assert (forall pid i, In (pid, i) (d_dict st) -> (i < id)%nat) as Hlt.
    { intros pid i H. destruct (ri_dict _ I pid i H) as (q' & H1 & _). apply nth_error_Some. congruence. }
    assert (forall i, nth_error (d_procs st ++ [q]) i = if (i =? id)%nat then Some q else nth_error (d_procs st) i) as Hnth.
    { intros i. destruct (Nat.lt_ge_cases i id) as [H|H].
      - rewrite nth_error_app1 by exact H. replace (i =? id)%nat with false by (symmetry; apply Nat.eqb_neq; lia). reflexivity.
      - rewrite nth_error_app2 by exact H. fold id. destruct (i =? id)%nat eqn:E.
        + apply Nat.eqb_eq in E. subst i. now rewrite Nat.sub_diag.
        + apply Nat.eqb_neq in E. destruct (i - id)%nat eqn:E2; [lia|]. cbn.
          replace (nth_error [] n) with (@None proc) by now destruct n. symmetry. apply nth_error_None. exact H. }
    constructor; cbn [enrol set_reg set_procs d_list d_dict d_procs d_calls]; fold id.
    + rewrite (dset_keys_new Z.eqb Z.eqb_eq) by auto. rewrite map_app, (ri_list _ I). reflexivity.
    + apply (dset_NoDup Z.eqb Z.eqb_eq). apply I.
    + apply NoDup_snoc; [apply I|]. rewrite (ri_list _ I). intros H. apply in_map_iff in H as ([pid i] & E & H). cbn in E. subst i.
      specialize (Hlt _ _ H). lia.
    + intros pid i H. rewrite (dset_keys_new Z.eqb Z.eqb_eq) in H by auto. apply in_app_iff in H as [H|[[= <- <-]|[]]].
      * rewrite Hnth. specialize (Hlt _ _ H). replace (i =? id)%nat with false by (symmetry; apply Nat.eqb_neq; lia).
        now apply (ri_dict _ I).
      * rewrite Hnth, Nat.eqb_refl. eauto.
    + intros i q' H Ha'. rewrite (dset_keys_new Z.eqb Z.eqb_eq) by auto. apply in_app_iff. rewrite Hnth in H.
      destruct (i =? id)%nat eqn:E; [|left; now apply (ri_att _ I)]. injection H as <-. apply Nat.eqb_eq in E. subst i. right. now left.
    + intros i. destruct (ri_det _ I i) as (H1 & H2 & H3). split; [exact H1|]. rewrite Hnth. destruct (i =? id)%nat eqn:E; [|auto].
      split; [|discriminate]. intros q' _ _. apply H3. apply Nat.eqb_eq in E. subst i. apply nth_error_None. reflexivity.
  - set (st1 := upd st id (set_attached false)).
    assert (reg_inv st1) as I1 by (apply inv_upd; [split; [auto|discriminate]|exact I]).
    change (pr_pid q) with (pr_pid (set_attached false q)) at 2.
    assert (reg_inv (add_call st1 (KDetach id (pr_pid q)))) as I2.
    { constructor; cbn [add_call d_list d_dict d_procs d_calls]; try apply I1.
      intros i. destruct (ri_det _ I1 i) as (H1 & H2 & H3). unfold detaches. cbn [filter is_detach_of].
      destruct (Nat.eqb id i) eqn:E; [|auto]. apply Nat.eqb_eq in E. subst i. cbn [List.length]. fold (detaches id (d_calls st1)).
      destruct (ri_det _ I id) as (_ & H4 & _). specialize (H4 q Hq Ha). change (d_calls st1) with (d_calls st). rewrite H4.
      split; [auto|]. assert (nth_error (d_procs st1) id = Some (set_attached false q)) as En.
      { cbn. rewrite nth_upd_nth, Nat.eqb_refl, Hq. reflexivity. }
      rewrite En. split; [|discriminate]. intros q' [= <-]. discriminate. }
    apply inv_drop; auto.
    + cbn. rewrite nth_upd_nth, Nat.eqb_refl, Hq. reflexivity.
    + cbn. apply (ri_att _ I); auto.
  - set (st1 := upd st id (set_attached false)).
    assert (reg_inv st1) as I1 by (apply inv_upd; [split; [auto|discriminate]|exact I]).
    constructor; cbn [add_call d_list d_dict d_procs d_calls]; try apply I1.
    intros i. destruct (ri_det _ I1 i) as (H1 & H2 & H3). unfold detaches. cbn [filter is_detach_of].
    destruct (Nat.eqb id i) eqn:E; [|auto]. apply Nat.eqb_eq in E. subst i. cbn [List.length]. fold (detaches id (d_calls st1)).
    destruct (ri_det _ I id) as (_ & H4 & _). specialize (H4 q Hq Ha). change (d_calls st1) with (d_calls st). rewrite H4.
    split; [auto|]. assert (nth_error (d_procs st1) id = Some (set_attached false q)) as En.
    { cbn. rewrite nth_upd_nth, Nat.eqb_refl, Hq. reflexivity. }
    rewrite En. split; [|discriminate]. intros q' [= <-]. discriminate.
  - set (st1 := upd st id (set_attached false)).
    assert (reg_inv st1) as I1 by (apply inv_upd; [split; [auto|discriminate]|exact I]).
    change (pr_pid q) with (pr_pid (set_attached false q)). apply inv_drop; auto.
    + cbn. rewrite nth_upd_nth, Nat.eqb_refl, Hq. reflexivity.
    + cbn. apply (ri_att _ I); auto.
Qed.
Lemma ticks_inv P st st' : ticks P st st' -> reg_inv st -> reg_inv st'.
Proof. induction 1; auto. intros. apply IHticks. eapply tick_inv; eauto. Qed.
Lemma inv_same st st' : d_procs st' = d_procs st -> d_dict st' = d_dict st -> d_list st' = d_list st -> d_calls st' = d_calls st ->
  reg_inv st -> reg_inv st'.
Proof.
  intros H1 H2 H3 H4 [A B C D' E F]. constructor; rewrite ?H1, ?H2, ?H3, ?H4; auto.
Qed.
Lemma reachable_inv K p st : reachable_plain K p st -> reg_inv st.
Proof.
  intros (ops & Hd & ->).
  assert (reg_inv (new_debugger p)) as I0.
  { unfold new_debugger, enableSysgood. destruct (negb _); cbn; (constructor; cbn; try easy; try constructor);
      try (intros [|id] q H; discriminate); try (intros [|id]; cbn; split; [lia|split; [easy|reflexivity]]). all: auto. }
  revert I0. generalize (new_debugger p). revert Hd. induction ops as [|o ops IH]; intros Hd st I; [exact I|].
  cbn in Hd |- *. apply andb_prop in Hd as [Hd1 Hd2]. apply IH; [exact Hd2|].
  apply negb_true_iff in Hd1. destruct (op_ticks K p o st Hd1) as [Ht|(H1 & H2 & H3 & H4)].
  - eapply ticks_inv; eauto.
  - eapply inv_same; eauto.
Qed.
