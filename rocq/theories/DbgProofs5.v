From Coq Require Import ZArith List Ascii String Bool Lia.
From Verif Require Import PyBase PyFacts Platform DbgModel DbgSpec DbgProofs DbgProofs2 DbgProofs3 DbgProofs4.
Import ListNotations.
Open Scope Z_scope.

Lemma reg_ok st : reg_inv st -> registry_ok st.
Proof. intros I. repeat split; apply I. Qed.
Lemma reg_dget st id q : reg_inv st -> nth_error (d_procs st) id = Some q -> pr_is_attached q = true ->
  dget Z.eqb (pr_pid q) (d_dict st) = Some id.
Proof. intros I Hq Ha. apply (dget_NoDup_In Z.eqb Z.eqb_eq); [apply I|]. now apply (ri_att _ I). Qed.

(** ** Registered processes are attached *)
Definition inv2 (st : dstate) : Prop := reg_inv st /\ clean st.
Definition soft {A} (o : out A) : Prop :=
  match o with
  | Ret _ => True
  | Raise (XErr EKeyboardInterrupt) => True
  | Raise (XEvent (ProcessSignal _ _)) => True
  | _ => False
  end.
Definition kc {A} (m : D A) : Prop := forall st, inv2 st -> soft (snd (m st)) -> inv2 (fst (m st)).
Lemma kc_ret {A} (a : A) : kc (dret a). Proof. intros st H _. exact H. Qed.
Lemma kc_raise {A} e : kc (@draise A e). Proof. intros st H _. exact H. Qed.
Lemma kc_throw {A} e : kc (@dthrow A e). Proof. intros st H _. exact H. Qed.
Lemma kc_get : kc dget_state. Proof. intros st H _. exact H. Qed.
Lemma kc_proc id : kc (get_proc id). Proof. intros st H _. unfold get_proc. destruct (nth_error _ _); exact H. Qed.
Lemma kc_bind {A B} (m : D A) (f : A -> D B) : kc m -> (forall a, kc (f a)) -> kc (dbind m f).
Proof.
  intros Hm Hf st H. unfold dbind. specialize (Hm st H). destruct (m st) as [st1 [a|x]]; cbn [fst snd] in *.
  - intros Hs. apply Hf; auto. apply Hm. exact I.
  - intros Hs. apply Hm. exact Hs.
Qed.
Lemma inv2_call st c : (forall id pid, c <> KDetach id pid) -> inv2 st -> inv2 (add_call st c).
Proof. intros Hc [A B]. split; [now apply inv_call|exact B]. Qed.
Lemma inv2_upd st id f : (forall q, pr_pid (f q) = pr_pid q /\ pr_is_attached (f q) = pr_is_attached q) -> inv2 st -> inv2 (upd st id f).
Proof.
  intros Hf [A B]. split; [apply inv_upd; [|exact A]; intros q; destruct (Hf q) as [-> ->]; auto|].
  intros i Hi. destruct (B i Hi) as (q & Hq & Ha). unfold attached. cbn. rewrite nth_upd_nth, Hq.
  destruct (i =? id)%nat; cbn; [|eauto]. eexists. split; [reflexivity|]. destruct (Hf q) as [_ ->]. exact Ha.
Qed.
Lemma inv2_enrol st q : dmem Z.eqb (pr_pid q) (d_dict st) = false -> pr_is_attached q = true -> inv2 st -> inv2 (enrol st q).
Proof.
  intros Hm Ha [A B]. split; [eapply (tick_inv anything); [apply t_new; eassumption|exact A]|].
  intros i Hi. unfold registered, attached in *. cbn in Hi |- *. rewrite in_app_iff in Hi. destruct Hi as [Hi|[<-|[]]].
  - destruct (B i Hi) as (q' & Hq & Ha'). exists q'. split; [|exact Ha']. rewrite nth_error_app1; [exact Hq|]. apply nth_error_Some. congruence.
  - exists q. split; [|exact Ha]. rewrite nth_error_app2, Nat.sub_diag by lia. reflexivity.
Qed.
Lemma remove_first_notin id l : NoDup l -> ~ In id (remove_first id l).
Proof.
  induction l as [|x l IH]; cbn; intros Hn; [auto|]. inversion Hn; subst. destruct (Nat.eqb x id) eqn:E.
  - apply Nat.eqb_eq in E. now subst.
  - apply Nat.eqb_neq in E. cbn. intros [->|H]; [congruence|]. now apply IH.
Qed.
Lemma inv2_drop st id q c : reg_inv (drop (add_call (upd st id (set_attached false)) c) id (pr_pid q)) \/
   reg_inv (drop (upd st id (set_attached false)) id (pr_pid q)) -> inv2 st -> 
   clean (drop (upd st id (set_attached false)) id (pr_pid q)).
Proof.
  intros _ [A B] i Hi. unfold registered in Hi. cbn in Hi.
  assert (i <> id) as Hne. { intros ->. exact (remove_first_notin _ _ (ri_ids _ A) Hi). }
  destruct (B i (remove_first_in _ _ _ Hi)) as (q' & Hq & Ha). exists q'. split; [|exact Ha]. cbn. rewrite nth_upd_nth.
  apply Nat.eqb_neq in Hne. rewrite Hne. exact Hq.
Qed.
Lemma inv2_gone st id q : nth_error (d_procs st) id = Some q -> inv2 st -> inv2 (gone st id q).
Proof.
  intros Hq H. unfold gone. pose proof (inv2_upd st id (set_running false) ltac:(auto) H) as H1.
  destruct (pr_is_attached q) eqn:Ea; [|exact H1].
  assert (nth_error (d_procs (upd st id (set_running false))) id = Some (set_running false q)) as Hq1.
  { cbn. rewrite nth_upd_nth, Nat.eqb_refl, Hq. reflexivity. }
  assert (reg_inv (drop (upd (upd st id (set_running false)) id (set_attached false)) id (pr_pid q))) as Hr.
  { eapply (tick_inv anything); [|exact (proj1 H1)]. change (pr_pid q) with (pr_pid (set_running false q)). now apply t_detach_dead. }
  split; [exact Hr|]. apply (inv2_drop _ id q (KSleep 0)); [right; exact Hr|exact H1].
Qed.

Section Facts.
  Context (K : dkernel) (p : platform).
  Lemma kc_notRunning id : kc (notRunning K id).
  Proof.
    intros st H. destruct (nth_error (d_procs st) id) as [q|] eqn:Eq.
    - rewrite (notRunning_eq K st id q Eq). intros _. now apply inv2_gone.
    - unfold notRunning, dbind at 1, upd_proc. unfold detach, dbind at 1 2, get_proc. cbn [d_procs set_procs]. rewrite nth_upd_nth, Nat.eqb_refl, Eq. intros [].
  Qed.
  Lemma req_inv2 c st : (forall id pid, c <> KDetach id pid) -> inv2 st -> inv2 (fst (request K c st)).
  Proof. intros Hc H. apply inv2_call; auto. Qed.
  Lemma kc_request c : (forall id pid, c <> KDetach id pid) -> kc (request K c).
  Proof. intros Hc st H _. now apply req_inv2. Qed.
  Lemma kc_upd id f : (forall q, pr_pid (f q) = pr_pid q /\ pr_is_attached (f q) = pr_is_attached q) -> kc (upd_proc id f).
  Proof. intros Hf st H _. now apply inv2_upd. Qed.
  Lemma cont_inv2 id s st : inv2 st -> inv2 (fst (cont K id s st)).
  Proof.
    intros H. unfold cont, dbind, get_proc. destruct (nth_error _ _) as [q|]; [|exact H]. unfold request.
    destruct (k_do K _ _); cbn [fst].
    - apply inv2_upd; [auto|]. now apply inv2_call.
    - now apply inv2_call.
  Qed.
  Lemma kill_inv2 id s st : inv2 st -> inv2 (fst (kill K id s st)).
  Proof. intros H. unfold kill, dbind, get_proc. destruct (nth_error _ _) as [q|]; [|exact H]. now apply inv2_call. Qed.
  Lemma kc_cont id s : kc (cont K id s). Proof. intros st H _. now apply cont_inv2. Qed.
  Lemma kc_waitpid pid b : kc (waitpid_ K p pid b) /\ forall st, inv2 st -> inv2 (fst (waitpid_ K p pid b st)).
  Proof.
    assert (forall st, inv2 st -> inv2 (fst (waitpid_ K p pid b st))) as H.
    { intros st H. unfold waitpid_, dbind at 1.
      assert (forall x (fl : Z), match os_waitpid K x fl st with
         | (st0, Ret (pid', status)) => inv2 (fst ((if (b || negb (pid' =? 0)) && negb (pid =? 0) && negb (pid' =? pid) then draise EDebuggerError else dret (pid', status)) st0))
         | (st0, Raise _) => inv2 st0 end) as Hos.
      { intros x fl. unfold os_waitpid. destruct (k_wait K _ _ _) as [[a b']|e]; [|now apply inv2_call].
        destruct (_ && _); now apply inv2_call. }
      destruct (negb (pid =? 0)).
      - unfold dbind at 1, dget_state. destruct (dget Z.eqb pid (d_dict st)) as [id|]; [|exact H].
        unfold dbind at 1, get_proc. destruct (nth_error _ _) as [q|]; [|exact H].
        destruct (_ && _); [exact H|]. match goal with |- context [os_waitpid K ?x ?fl st] => specialize (Hos x fl); destruct (os_waitpid K x fl st) as [s0 [[u v]|x0]] end; exact Hos.
      - match goal with |- context [os_waitpid K ?x ?fl st] => specialize (Hos x fl); destruct (os_waitpid K x fl st) as [s0 [[u v]|x0]] end; exact Hos. }
    split; [|exact H]. intros st Hi _. auto.
  Qed.
  Lemma kc_signals rec l pid : (forall q, kc (rec q)) -> kc (waitSignals_ rec l pid).
  Proof.
    intros Hr. apply kc_bind; [apply Hr|]. intros [[]|]; try apply kc_throw; try apply kc_raise. destruct (_ || _); [apply kc_ret|apply kc_throw].
  Qed.
  Lemma kc_add f pid a par th : (forall q, kc (wait K p f q)) -> kc (addProcess K p f pid a par th).
  Proof.
    intros Hr st H. destruct (dmem Z.eqb pid (d_dict st)) eqn:Em; [rewrite add_duplicate by exact Em; intros []|].
    assert ((exists e, a = false /\ k_do K (List.length (d_calls st)) (KAttach pid) = Err e) \/
            (a = false -> exists u, k_do K (List.length (d_calls st)) (KAttach pid) = Ok u)) as [(e & -> & He)|Ha].
    { destruct a; [right; discriminate|]. destruct (k_do K _ _); [right; eauto|left; eauto]. }
    - rewrite (add_attach_fails K p f pid par th st e Em He). intros _. now apply inv2_call.
    - rewrite (add_eq K p f pid a par th st Em Ha). cbn zeta.
      assert (inv2 (start pid a par th st)) as H1.
      { unfold start. apply inv2_enrol; [destruct a; exact Em|reflexivity|]. destruct a; [exact H|now apply inv2_call]. }
      unfold handshake. pose proof (kc_signals (wait K p f) [SIGTRAP; SIGSTOP] (Some pid) Hr _ H1) as Hk. fold (waitSignals K p f) in Hk.
      assert (forall s, inv2 s -> let r := (if has_ptrace_events p && negb (d_options s =? 0) then
            match setoptions K p (List.length (d_procs st)) (d_options s) s with (s1, Ret _) => (s1, Ret (List.length (d_procs st))) | (s1, Raise x) => (s1, Raise x) end
          else (s, Ret (List.length (d_procs st)))) in inv2 (fst r)) as Hfin.
      { intros s Hs. cbn zeta. destruct (_ && _); [|exact Hs]. unfold setoptions, dbind, get_proc. destruct (nth_error _ _); [|exact Hs].
        destruct (negb _); [exact Hs|]. unfold request. match goal with |- context [k_do K ?a ?b] => destruct (k_do K a b) end; cbn [fst]; now apply inv2_call. }
      destruct (waitSignals K p f _ _ _) as [s o]. cbn [fst snd] in Hk.
      destruct o as [u|[e|ev]].
      + intros _. apply Hfin. now apply Hk.
      + destruct e; try (intros []). intros _. apply Hfin. now apply Hk.
      + destruct ev; try (intros []). intros _. pose proof (Hk I) as Hs. unfold request.
        match goal with |- context [k_do K ?a ?b] => destruct (k_do K a b) end; [apply Hfin|]; now apply inv2_call.
  Qed.
  Lemma kc_status f id status : (forall q, kc (wait K p f q)) -> kc (processStatus_ K p (wait K p f) id status).
  Proof.
    intros Hr. unfold processStatus_. destruct (WIFEXITED status).
    { unfold processExited_. apply kc_bind; [apply kc_proc|]. intros q. apply kc_bind.
      - destruct (_ && _); [|apply kc_ret]. apply kc_bind; [now apply kc_upd|]. intros _. apply kc_bind; [apply Hr|]. intros _. apply kc_ret.
      - intros _. apply kc_bind; [apply kc_notRunning|]. intros _. apply kc_ret. }
    destruct (WIFSIGNALED status). { apply kc_bind; [apply kc_notRunning|]. intros _. apply kc_ret. }
    destruct (negb (WIFSTOPPED status)); [apply kc_raise|].
    destruct (_ && _); [|apply kc_bind; [now apply kc_upd|intros _; apply kc_ret]].
    unfold ptraceEvent_. destruct (negb _); [apply kc_raise|]. destruct (_ || _).
    - apply kc_bind; [apply kc_proc|]. intros q. apply kc_bind; [intros st H _; now apply inv2_call|]. intros np.
      apply kc_bind; [now apply kc_add|]. intros; apply kc_ret.
    - destruct (_ =? _); [apply kc_ret|apply kc_raise].
  Qed.
  Lemma kc_wait f : forall q, kc (wait K p f q).
  Proof.
    induction f as [|f IH]; intros q; cbn [wait]; [apply kc_raise|]. destruct q as [pid b|pause b|id].
    - intros st H. unfold wait_event_pid_. destruct (kc_waitpid pid b) as [_ Hw]. specialize (Hw st H).
      destruct (waitpid_ K p pid b st) as [s [[pid' status]|[e|ev]]]; cbn [fst] in Hw.
      + destruct (_ && _); [intros _; exact Hw|]. destruct (dget Z.eqb pid' (d_dict s)) as [id|]; [|now apply IH].
        revert s Hw. change (kc (dbind (processStatus_ K p (wait K p f) id status) (fun ev => dret (Some ev)))).
        apply kc_bind; [now apply kc_status|intros; apply kc_ret].
      + destruct e; try (intros _; exact Hw). destruct (_ =? _); [|intros _; exact Hw].
        destruct (dget Z.eqb pid (d_dict s)) as [id|]; [|intros []].
        revert s Hw. change (kc (dbind (processTerminated K id) (fun ev => dret (Some ev)))).
        apply kc_bind; [|intros; apply kc_ret]. apply kc_bind; [apply kc_notRunning|intros; apply kc_ret].
      + intros _; exact Hw.
    - unfold wait_any_. apply kc_bind; [apply kc_get|]. intros st0. destruct (map fst (d_dict st0)) as [|x [|y l]]; [apply kc_raise|apply IH|].
      apply kc_bind.
      + generalize (x :: y :: l). clear -IH. intros l. induction l as [|z l IHl]; cbn [poll]; [apply kc_ret|].
        apply kc_bind; [apply IH|]. intros [ev|]; [apply kc_ret|exact IHl].
      + intros [ev|]; [apply kc_ret|]. destruct (negb b); [apply kc_ret|]. apply kc_bind; [apply kc_request; discriminate|]. intros _. apply IH.
    - unfold waitExit_. apply kc_bind; [apply kc_proc|]. intros q. apply kc_bind; [apply IH|].
      intros [[]|]; try apply kc_ret; try apply kc_throw; try apply kc_raise. apply kc_bind; [apply kc_cont|]. intros _; apply IH.
  Qed.
  Lemma kc_terminate f id w : kc (terminate K p f id w).
  Proof.
    unfold terminate. apply kc_bind; [apply kc_proc|]. intros q. destruct (_ || _); [apply kc_ret|]. apply kc_bind.
    - intros st H. set (m := if pr_is_stopped q then cont K id SIGKILL else kill K id SIGKILL).
      assert (inv2 (fst (m st))) as Hm by (unfold m; destruct (pr_is_stopped q); [now apply cont_inv2|now apply kill_inv2]).
      destruct (m st) as [s [u|[e|ev]]]; cbn [fst] in Hm; try (intros _; exact Hm).
      destruct (ptrace_errno e) as [[n|]|]; try (intros _; exact Hm). destruct (n =? ESRCH); intros _; exact Hm.
    - intros []; [apply kc_bind; [apply kc_notRunning|intros; apply kc_ret]|]. destruct (negb w); [apply kc_ret|].
      apply kc_bind; [unfold waitExit; apply kc_bind; [apply kc_wait|intros; apply kc_ret]|]. intros _.
      apply kc_bind; [apply kc_notRunning|intros; apply kc_ret].
  Qed.

  (** *** detach *)
  Definition dropped (st : dstate) (id : nat) (q : proc) : dstate :=
    if pr_running q then drop (add_call (upd st id (set_attached false)) (KDetach id (pr_pid q))) id (pr_pid q)
    else drop (upd st id (set_attached false)) id (pr_pid q).
  Lemma detach_eq st id q : nth_error (d_procs st) id = Some q -> pr_is_attached q = true ->
    detach K id st =
      if pr_running q then
        match k_do K (List.length (d_calls st)) (KDetach id (pr_pid q)) with
        | Ok _ => (dropped st id q, Ret tt)
        | Err e => (add_call (upd st id (set_attached false)) (KDetach id (pr_pid q)), Raise (XErr e))
        end
      else (dropped st id q, Ret tt).
  Proof.
    intros Hq Ha. unfold detach, dbind at 1. rewrite (get_proc_eq st id q Hq). rewrite Ha. cbn [negb].
    unfold dbind at 1, upd_proc at 1. fold (upd st id (set_attached false)). unfold dropped.
    assert (nth_error (d_procs (upd st id (set_attached false))) id = Some (set_attached false q)) as Hq1.
    { cbn. rewrite nth_upd_nth, Nat.eqb_refl, Hq. reflexivity. }
    destruct (pr_running q).
    - unfold dbind at 1, request. change (d_calls (upd st id (set_attached false))) with (d_calls st).
      destruct (k_do K _ _); [|reflexivity]. unfold deleteProcess, dbind, get_proc. cbn [d_procs add_call]. rewrite Hq1. reflexivity.
    - unfold dbind at 1, dret. unfold deleteProcess, dbind, get_proc. rewrite Hq1. reflexivity.
  Qed.
  Lemma dropped_tick P st id q : nth_error (d_procs st) id = Some q -> pr_is_attached q = true -> tick P st (dropped st id q).
  Proof. intros Hq Ha. unfold dropped. destruct (pr_running q) eqn:Er; [now apply t_detach|now apply t_detach_dead]. Qed.
  Lemma inv2_dropped st id q : nth_error (d_procs st) id = Some q -> pr_is_attached q = true -> inv2 st -> inv2 (dropped st id q).
  Proof.
    intros Hq Ha H. assert (reg_inv (dropped st id q)) as Hr by (eapply (tick_inv anything); [now apply dropped_tick|apply H]).
    split; [exact Hr|]. unfold dropped in *. destruct (pr_running q).
    - exact (inv2_drop st id q _ (or_introl Hr) H).
    - exact (inv2_drop st id q (KSleep 0) (or_intror Hr) H).
  Qed.
  Lemma dropped_unreg st id q : reg_inv st -> ~ registered (dropped st id q) id /\ dget Z.eqb (pr_pid q) (d_dict (dropped st id q)) = None.
  Proof.
    intros I. unfold dropped, registered. destruct (pr_running q); cbn; (split; [apply remove_first_notin; apply I|apply (dget_ddel_same Z.eqb Z.eqb_eq); apply I]).
  Qed.
  Lemma detach_returns st id st' : inv2 st -> detach K id st = (st', Ret tt) -> inv2 st' /\ ~ registered st' id /\ ticks anything st st'.
  Proof.
    intros H Hd. pose proof (within_detach K anything id st) as Ht. rewrite Hd in Ht. cbn in Ht.
    destruct (nth_error (d_procs st) id) as [q|] eqn:Eq.
    - destruct (pr_is_attached q) eqn:Ea.
      + rewrite (detach_eq st id q Eq Ea) in Hd.
        assert (st' = dropped st id q) as ->.
        { destruct (pr_running q); [|congruence]. destruct (k_do K _ _); congruence. }
        split; [now apply inv2_dropped|]. split; [|exact Ht]. apply dropped_unreg, H.
      + assert (~ attached st id) as Hn by (intros (q' & H1 & H2); congruence).
        rewrite detach_unattached in Hd; [|exact Hn|congruence]. injection Hd as <-. split; [exact H|]. split; [|exact Ht].
        intros Hreg. apply Hn. now apply H.
    - unfold detach, dbind, get_proc in Hd. rewrite Eq in Hd. discriminate.
  Qed.

  (** *** quit *)
  Lemma quit_loop_clears f l : forall st st', inv2 st -> (forall i, In i l -> nth_error (d_procs st) i <> None) ->
    quit_loop K p f l st = (st', Ret tt) -> forall i, In i l -> ~ registered st' i.
  Proof.
    induction l as [|id l IH]; intros st st' H Hl Hq i Hi; [destruct Hi|]. cbn [quit_loop] in Hq. unfold dbind at 1 in Hq.
    pose proof (kc_terminate f id true st H) as Ht. pose proof (within_any_terminate K p f id true st) as Hk1.
    destruct (terminate K p f id true st) as [s1 [u|x]]; [|discriminate]. cbn [fst snd] in *. specialize (Ht I).
    unfold dbind at 1 in Hq. destruct (detach K id s1) as [s2 [[]|x]] eqn:Ed; [|discriminate].
    destruct (detach_returns s1 id s2 Ht Ed) as (H2 & Hun & Hk2).
    assert (forall j, nth_error (d_procs st) j <> None -> nth_error (d_procs s2) j <> None) as Hmono.
    { intros j Hj. destruct (nth_error (d_procs st) j) as [q|] eqn:Ej; [|congruence].
      destruct (ticks_keep _ _ _ _ _ (ticks_trans _ _ _ _ Hk1 Hk2) Ej) as (q' & -> & _). discriminate. }
    destruct Hi as [<-|Hi].
    - assert (ticks anything s2 st') as Hk3.
      { clear -Hq. revert s2 Hq. induction l as [|j l IHl]; intros s2 Hq; cbn [quit_loop] in Hq; [injection Hq as <-; constructor|].
        unfold dbind at 1 in Hq. pose proof (within_any_terminate K p f j true s2) as A1.
        destruct (terminate K p f j true s2) as [s3 [u|x]]; [|discriminate]. unfold dbind at 1 in Hq.
        pose proof (within_detach K anything j s3) as A2. destruct (detach K j s3) as [s4 [u'|x]]; [|discriminate].
        eapply ticks_trans; [exact A1|]. eapply ticks_trans; [exact A2|]. now apply IHl. }
      intros Hreg. apply Hun. eapply ticks_unreg; eauto. apply nth_error_Some. apply Hmono. apply Hl. now left.
    - eapply IH; eauto. intros j Hj. apply Hmono, Hl. now right.
  Qed.
  Lemma quit_clears f st st' : reachable_plain K p st -> clean st -> quit K p f st = (st', Ret tt) ->
    forall id, registered st id -> ~ registered st' id.
  Proof.
    intros Hr Hc Hq id Hid. pose proof (reachable_inv K p st Hr) as I. unfold quit, dbind, dget_state in Hq.
    eapply (quit_loop_clears f (rev (d_list st))); [split; eauto| |exact Hq|apply in_rev in Hid; exact Hid].
    intros i Hi. apply in_rev in Hi. destruct (Hc i Hi) as (q & Eq & _). congruence.
  Qed.

  Definition only (id : nat) (st : dstate) (c : kcall) : Prop := forall i, signals_to i c = true -> i = id.
  Lemma within_exit_only f id : running_linux p = true -> within (only id) (wait K p f (QExit id)).
  Proof.
    intros Hl. induction f as [|f IH]; cbn [wait]; [win|]. unfold waitExit_. apply within_bind; [win|]. intros q.
    apply within_bind.
    - intros st. eapply ticks_mono; [|apply (within_wait K p false)]; [|unfold running_bsd; rewrite Hl; discriminate|discriminate].
      intros s c Hc i Hi. destruct c; cbn in Hc; try discriminate; try destruct Hc; try discriminate.
    - intros [[]|]; try solve [win]. apply within_bind; [|intros; apply IH]. apply within_cont.
      intros st pid i Hi. cbn in Hi. apply Nat.eqb_eq in Hi. auto.
  Qed.
  Lemma within_terminate_only f id w : running_linux p = true -> within (only id) (terminate K p f id w).
  Proof.
    intros Hl. assert (forall c, (forall i, signals_to i c = true -> i = id) -> (forall i pid, c <> KDetach i pid) -> within (only id) (request K c)) as Hreq.
    { intros c Hc Hd. apply within_request; [|exact Hd]. intros st. exact Hc. }
    assert (forall b, within (only id) (if b : bool then cont K id SIGKILL else kill K id SIGKILL)) as Hm.
    { intros []; [apply within_cont; intros st pid i Hi; cbn in Hi; apply Nat.eqb_eq in Hi; auto|].
      apply within_bind; [win|]. intros q. apply Hreq; [|discriminate]. intros i Hi; cbn in Hi; apply Nat.eqb_eq in Hi; auto. }
    unfold terminate. apply within_bind; [win|]. intros q. destruct (_ || _); [win|]. apply within_bind.
    - intros st. specialize (Hm (pr_is_stopped q) st).
      destruct ((if pr_is_stopped q then cont K id SIGKILL else kill K id SIGKILL) st) as [s [u|[e|ev]]]; cbn [fst] in Hm; try exact Hm.
      destruct (ptrace_errno e) as [[n|]|]; try exact Hm. destruct (n =? ESRCH); exact Hm.
    - intros []; [apply within_bind; [apply within_notRunning|win]|]. destruct (negb w); [win|].
      apply within_bind; [unfold waitExit; apply within_bind; [now apply within_exit_only|win]|]. intros _.
      apply within_bind; [apply within_notRunning|win].
  Qed.
  Lemma terminate_skips f id w st q : nth_error (d_procs st) id = Some q -> pr_running q = false \/ pr_was_attached q = false ->
    terminate K p f id w st = (st, Ret true).
  Proof.
    intros Hq Hc. unfold terminate, dbind at 1. rewrite (get_proc_eq st id q Hq).
    replace (negb (pr_running q) || negb (pr_was_attached q)) with true; [reflexivity|]. destruct Hc as [-> | ->]; [reflexivity|]. now destruct (pr_running q).
  Qed.
  Lemma terminate_none f id w st : nth_error (d_procs st) id = None -> fst (terminate K p f id w st) = st.
  Proof. intros H. unfold terminate, dbind at 1, get_proc. rewrite H. reflexivity. Qed.
  Lemma terminate_calls f id w st : running_linux p = true ->
    exists new, made st (fst (terminate K p f id w st)) new /\
      forall c i, In c new -> signals_to i c = true -> i = id /\ started st id /\ alive st id.
  Proof.
    intros Hl. assert (~ (started st id /\ alive st id) \/ (started st id /\ alive st id)) as [Hn|Hy].
    { destruct (nth_error (d_procs st) id) as [q|] eqn:Eq.
      - destruct (pr_running q) eqn:E1, (pr_was_attached q) eqn:E2.
        + right. split; exists q; auto.
        + left. intros [(q' & A & B) _]. congruence.
        + left. intros [_ (q' & A & B)]. congruence.
        + left. intros [_ (q' & A & B)]. congruence.
      - left. intros [(q' & A & B) _]. congruence. }
    - exists []. split; [|intros c i []]. destruct (nth_error (d_procs st) id) as [q|] eqn:Eq; [|now rewrite terminate_none].
      rewrite (terminate_skips f id w st q Eq); [reflexivity|]. destruct (pr_running q) eqn:E1; [|now left]. right.
      destruct (pr_was_attached q) eqn:E2; [|reflexivity]. exfalso. apply Hn. split; exists q; auto.
    - destruct (ticks_calls _ _ _ (within_terminate_only f id w Hl st)) as (new & H1 & H2). exists new. split; [exact H1|].
      intros c i Hc Hs. split; [|exact Hy]. destruct (H2 c Hc) as [(s & Ho)|(j & pid & ->)]; [now apply Ho|discriminate].
  Qed.
  Lemma detach_calls id st : exists new, made st (fst (detach K id st)) new /\ forall c i, In c new -> signals_to i c = false.
  Proof.
    destruct (ticks_calls _ _ _ (within_detach K (fun _ _ => False) id st)) as (new & H1 & H2). exists new. split; [exact H1|].
    intros c i Hc. destruct (H2 c Hc) as [(s & [])|(j & pid & ->)]. reflexivity.
  Qed.
  Lemma started_back P st st' id : ticks P st st' -> nth_error (d_procs st) id <> None -> started st' id -> started st id.
  Proof.
    intros Ht Hn (q' & Hq & Hw). destruct (nth_error (d_procs st) id) as [q|] eqn:Eq; [|congruence].
    destruct (ticks_keep _ _ _ _ _ Ht Eq) as (q2 & Hq2 & (_ & I2 & _)). exists q. split; [exact Eq|]. congruence.
  Qed.
  Lemma quit_loop_calls f l : running_linux p = true -> forall st, (forall i, In i l -> nth_error (d_procs st) i <> None) ->
    exists new, made st (fst (quit_loop K p f l st)) new /\ forall c i, In c new -> signals_to i c = true -> In i l /\ started st i.
  Proof.
    intros Hl. induction l as [|id l IH]; intros st Hn; cbn [quit_loop]; [exists []; split; [reflexivity|intros c i []]|].
    unfold dbind at 1. destruct (terminate_calls f id true st Hl) as (n1 & M1 & C1). pose proof (within_any_terminate K p f id true st) as T1.
    destruct (terminate K p f id true st) as [s1 [u|x]]; cbn [fst] in *.
    2:{ exists n1. split; [exact M1|]. intros c i Hc Hs. destruct (C1 c i Hc Hs) as (-> & A & _). split; [now left|exact A]. }
    unfold dbind at 1. destruct (detach_calls id s1) as (n2 & M2 & C2). pose proof (within_detach K anything id s1) as T2.
    destruct (detach K id s1) as [s2 [u'|x]]; cbn [fst] in *.
    2:{ exists (n1 ++ n2). split; [eapply made_trans; eauto|]. intros c i Hc Hs. apply in_app_iff in Hc as [Hc|Hc].
        - destruct (C1 c i Hc Hs) as (-> & A & _). split; [now left|exact A].
        - rewrite (C2 c i Hc) in Hs. discriminate. }
    pose proof (ticks_trans _ _ _ _ T1 T2) as T.
    destruct (IH s2) as (n3 & M3 & C3).
    { intros i Hi. destruct (nth_error (d_procs st) i) as [q|] eqn:Eq; [|exfalso; apply (Hn i); [now right|exact Eq]].
      destruct (ticks_keep _ _ _ _ _ T Eq) as (q' & -> & _). discriminate. }
    exists (n1 ++ n2 ++ n3). split; [eapply made_trans; [exact M1|eapply made_trans; eauto]|].
    intros c i Hc Hs. rewrite !in_app_iff in Hc. destruct Hc as [Hc|[Hc|Hc]].
    - destruct (C1 c i Hc Hs) as (-> & A & _). split; [now left|exact A].
    - rewrite (C2 c i Hc) in Hs. discriminate.
    - destruct (C3 c i Hc Hs) as (A & B). split; [now right|]. eapply started_back; eauto. apply Hn. now right.
  Qed.
  Lemma quit_calls f st : running_linux p = true -> registry_ok st ->
    exists new, made st (fst (quit K p f st)) new /\ forall c i, In c new -> signals_to i c = true -> registered st i /\ started st i.
  Proof.
    intros Hl (R1 & R2 & R3 & R4). destruct (quit_loop_calls f (rev (d_list st)) Hl st) as (new & H1 & H2).
    - intros i Hi. apply in_rev in Hi. rewrite R1 in Hi. apply in_map_iff in Hi as ([pid j] & E & Hin). cbn in E. subst j.
      destruct (R4 pid i Hin) as (q & Hq & _). congruence.
    - exists new. split; [exact H1|]. intros c i Hc Hs. destruct (H2 c i Hc Hs) as [A B]. split; [apply in_rev; exact A|exact B].
  Qed.
End Facts.
