From Coq Require Import ZArith List Ascii String Bool Lia.
From Verif Require Import PyBase PyFacts Platform DbgModel DbgSpec DbgProofs DbgProofs2 DbgProofs3 DbgProofs4 DbgProofs5.
Import ListNotations.
Open Scope Z_scope.

Section Facts.
  Context (K : dkernel) (p : platform).

  (** *** C26 *)
  Lemma reachable_ok st : reachable_plain K p st -> registry_ok st.
  Proof. intros H. apply reg_ok. eapply reachable_inv; eauto. Qed.
  Lemma attached_registered st id : reachable_plain K p st -> attached st id -> registered st id.
  Proof.
    intros H (q & Hq & Ha). pose proof (reachable_inv _ _ _ H) as I. unfold registered. rewrite (ri_list _ I).
    apply (in_map snd _ (pr_pid q, id)). now apply (ri_att _ I).
  Qed.

  (** *** C27 *)
  Lemma add_exit f pid (a : bool) par (th : bool) st : running_linux p = true -> reachable_plain K p st -> pid <> 0 ->
    dmem Z.eqb pid (d_dict st) = false ->
    (a = false -> exists u, k_do K (List.length (d_calls st)) (KAttach pid) = Ok u) ->
    let n := List.length (d_calls (if a then st else add_call st (KAttach pid))) in
    let flags := if th then thread_trace_flags p else 0 in
    (exists status, k_wait K n pid flags = Ok (pid, status) /\ status mod 128 <> 127) \/ k_wait K n pid flags = Err (EOSError 10) ->
    exists st' s c, addProcess K p (S f) pid a par th st = (st', Raise (XEvent (ProcessExit (List.length (d_procs st)) s c))) /\
      ~ registered st' (List.length (d_procs st)) /\ dget Z.eqb pid (d_dict st') = None.
  Proof.
    intros Hl Hr Hp Hm Ha n flags Hk. pose proof (reachable_inv _ _ _ Hr) as I.
    rewrite (add_eq K p (S f) pid a par th st Hm Ha). cbn zeta.
    set (s1 := start pid a par th st). set (id := List.length (d_procs st)). set (q := Proc pid true false a true true th par).
    assert (nth_error (d_procs s1) id = Some q) as Hq by apply start_nth.
    assert (reg_inv s1) as I1.
    { unfold s1, start. eapply (tick_inv anything); [apply t_new|].
      - destruct a; exact Hm.
      - reflexivity.
      - destruct a; [exact I|]. apply inv_call; [discriminate|exact I]. }
    assert (dget Z.eqb pid (d_dict s1) = Some id) as Hd by (change pid with (pr_pid q); now apply reg_dget).
    assert (d_calls s1 = d_calls (if a then st else add_call st (KAttach pid))) as Hc by (unfold s1, start; destruct a; reflexivity).
    set (s2 := add_call s1 (KWait pid flags)).
    assert (exists s c, wait K p (S f) (QPid pid true) s1 = (gone s2 id q, Ret (Some (ProcessExit id s c)))) as (s & c & Hw).
    { rewrite (wait_pid_eq K p f pid true s1 id q Hl Hp Hd Hq). cbn zeta.
      replace (wait_flags p q true) with flags by (unfold wait_flags, flags, q; cbn; destruct th; reflexivity).
      rewrite Hc. fold n. destruct Hk as [(status & -> & Hs)| ->].
      - rewrite Z.eqb_refl. assert (0 <= status mod 128 < 128) as Hb by (apply Z.mod_pos_bound; lia).
        fold s2. fold (processStatus K p f). destruct (Z.eq_dec (status mod 128) 0) as [E|E].
        + fold (processStatus K p f id status s2). rewrite (status_exit_eq K p f id status q s2 Hl Hq E). eauto.
        + fold (processStatus K p f id status s2). rewrite (status_killed_eq K p f id status q s2 Hq ltac:(lia)). eauto.
      - cbn. eauto. }
    exists (upd (gone s2 id q) id (set_attached false)), s, c. split.
    - unfold handshake, waitSignals, waitSignals_, dbind. cbn [wait_event_query]. rewrite Hw. reflexivity.
    - destruct (gone_facts s2 id q Hq) as (_ & _ & _ & D & _). destruct D as (D1 & D2 & _).
      + exists q. auto.
      + apply reg_ok. apply inv_call; [discriminate|exact I1].
      + split; [exact D1|exact D2].
  Qed.

  (** *** C28 *)
  Lemma detach_spec st id q : reachable_plain K p st -> nth_error (d_procs st) id = Some q -> pr_is_attached q = true ->
    (forall u, k_do K (List.length (d_calls st)) (KDetach id (pr_pid q)) = u -> u = Ok tt) ->
    exists st', detach K id st = (st', Ret tt) /\ ~ registered st' id /\ ~ attached st' id /\ dget Z.eqb (pr_pid q) (d_dict st') = None /\
      (forall i, i <> id -> registered st i -> registered st' i) /\
      made st st' (if pr_running q then [KDetach id (pr_pid q)] else []).
  Proof.
    intros Hr Hq Ha Hk. pose proof (reachable_inv _ _ _ Hr) as I. exists (dropped st id q).
    split; [|split; [|split; [|split; [|split]]]].
    - rewrite (detach_eq K st id q Hq Ha). destruct (pr_running q); [|reflexivity]. now rewrite (Hk _ eq_refl).
    - now apply dropped_unreg.
    - intros (q' & H1 & H2). unfold dropped in H1. destruct (pr_running q); cbn in H1; rewrite nth_upd_nth, Nat.eqb_refl, Hq in H1; injection H1 as <-; discriminate.
    - now apply dropped_unreg.
    - intros i Hi Hin. unfold registered in *. assert (forall l, In i l -> In i (remove_first id l)) as Hrm.
      { clear -Hi. induction l as [|x l IH]; cbn; [auto|]. intros [->|H]; destruct (Nat.eqb _ id) eqn:E; cbn; auto. apply Nat.eqb_eq in E. congruence. }
      unfold dropped. destruct (pr_running q); cbn; now apply Hrm.
    - unfold dropped, made. destruct (pr_running q); reflexivity.
  Qed.

  (** *** C29, obliging kernel *)
  Lemma wait_obliged f pid st id q : running_linux p = true -> obliging K -> pid <> 0 -> dget Z.eqb pid (d_dict st) = Some id ->
    nth_error (d_procs st) id = Some q ->
    wait K p (S f) (QPid pid true) st = (gone (add_call st (KWait pid (wait_flags p q true))) id q, Ret (Some (ProcessExit id (Some 9) None))).
  Proof.
    intros Hl [_ Hk] Hp Hd Hq. rewrite (wait_pid_eq K p f pid true st id q Hl Hp Hd Hq), Hk. cbn zeta. rewrite Z.eqb_refl.
    unfold processStatus_. cbn [WIFEXITED WTERMSIG WIFSIGNALED]. change (WIFEXITED 9) with false. change (WIFSIGNALED 9) with true. cbn iota.
    unfold processKilled, dbind. rewrite (notRunning_eq K (add_call st (KWait pid (wait_flags p q true))) id q Hq). reflexivity.
  Qed.
  Lemma upd_same_dict st id f : d_dict (upd st id f) = d_dict st. Proof. reflexivity. Qed.
  Lemma farewell_step f st id q : running_linux p = true -> obliging K -> reg_inv st ->
    nth_error (d_procs st) id = Some q -> pr_is_attached q = true -> pr_pid q <> 0 ->
    exists st', dbind (terminate K p (S (S f)) id true) (fun _ => detach K id) st = (st', Ret tt) /\ made st st' (farewell p q id) /\
      (forall i, i <> id -> nth_error (d_procs st') i = nth_error (d_procs st) i).
  Proof.
    intros Hl Hob I Hq Ha Hp. destruct (pr_running q) eqn:Er, (pr_was_attached q) eqn:Ew.
    - (* killed *)
      set (first := if pr_is_stopped q then KCont id (pr_pid q) 9 else KKill id (pr_pid q) 9).
      set (q1 := if pr_is_stopped q then set_stopped false q else q).
      set (s1 := if pr_is_stopped q then upd (add_call st first) id (set_stopped false) else add_call st first).
      assert ((if pr_is_stopped q then cont K id SIGKILL else kill K id SIGKILL) st = (s1, Ret tt)) as H1.
      { unfold s1, first. destruct Hob as [Hdo _]. destruct (pr_is_stopped q); unfold cont, kill, dbind; rewrite (get_proc_eq st id q Hq); unfold request; rewrite Hdo; reflexivity. }
      assert (nth_error (d_procs s1) id = Some q1) as Hq1.
      { unfold s1, q1. destruct (pr_is_stopped q); cbn; [rewrite nth_upd_nth, Nat.eqb_refl|]; rewrite Hq; reflexivity. }
      assert (pr_pid q1 = pr_pid q /\ pr_is_attached q1 = true /\ pr_is_thread q1 = pr_is_thread q) as (Q1 & Q2 & Q3) by (unfold q1; destruct (pr_is_stopped q); auto).
      assert (dget Z.eqb (pr_pid q) (d_dict s1) = Some id) as Hd.
      { replace (d_dict s1) with (d_dict st) by (unfold s1; destruct (pr_is_stopped q); reflexivity). now apply reg_dget. }
      pose proof (wait_obliged f (pr_pid q) s1 id q1 Hl Hob Hp Hd Hq1) as Hw.
      set (s2 := gone (add_call s1 (KWait (pr_pid q) (wait_flags p q1 true))) id q1) in *.
      assert (waitExit K p (S (S f)) id s1 = (s2, Ret tt)) as Hx.
      { unfold waitExit, dbind at 1. cbn [wait]. unfold waitExit_, dbind at 1. rewrite (get_proc_eq s1 id q1 Hq1), Q1. unfold dbind at 1.
        change (wait_event_pid_ K p (wait K p f) (pr_pid q) true) with (wait K p (S f) (QPid (pr_pid q) true)). rewrite Hw. reflexivity. }
      set (q2 := set_attached false (set_running false q1)).
      assert (nth_error (d_procs s2) id = Some q2) as Hq2.
      { unfold s2, gone. rewrite Q2. cbn. rewrite !nth_upd_nth, Nat.eqb_refl, Hq1. reflexivity. }
      exists (upd s2 id (set_running false)). split; [|split].
      + unfold dbind at 1, terminate, dbind at 1. rewrite (get_proc_eq st id q Hq), Er, Ew. cbn [negb orb].
        unfold dbind at 1. rewrite H1. unfold dbind at 1. rewrite Hx. unfold dbind at 1. rewrite (notRunning_eq K s2 id q2 Hq2). unfold gone. cbn [pr_is_attached q2 set_attached].
        cbn. apply detach_unattached.
        * intros (q' & A & B). cbn in A. rewrite nth_upd_nth, Nat.eqb_refl, Hq2 in A. injection A as <-. discriminate.
        * cbn. rewrite nth_upd_nth, Nat.eqb_refl, Hq2. discriminate.
      + unfold farewell. rewrite Er, Ew. unfold made. cbn [d_calls upd set_procs]. unfold s2.
        assert (forall s, d_calls (gone s id q1) = d_calls s) as -> by (intros s; unfold gone; destruct (pr_is_attached q1); reflexivity).
        replace (wait_flags p q1 true) with (if pr_is_thread q then thread_trace_flags p else 0) by (unfold wait_flags; rewrite Q3; destruct (pr_is_thread q); reflexivity).
        unfold s1, first. destruct (pr_is_stopped q); reflexivity.
      + intros i Hi. apply Nat.eqb_neq in Hi. cbn. rewrite nth_upd_nth, Hi. unfold s2, gone. rewrite Q2. cbn. rewrite !nth_upd_nth, Hi.
        unfold s1. destruct (pr_is_stopped q); cbn; [rewrite nth_upd_nth, Hi|]; reflexivity.
    - exists (dropped st id q). split; [|split].
      + unfold dbind. rewrite (terminate_skips K p (S (S f)) id true st q Hq) by auto. rewrite (detach_eq K st id q Hq Ha), Er. destruct Hob as [Hdo _]. now rewrite Hdo.
      + unfold made, farewell, dropped. rewrite Er, Ew. reflexivity.
      + intros i Hi. apply Nat.eqb_neq in Hi. unfold dropped. rewrite Er. cbn. rewrite nth_upd_nth, Hi. reflexivity.
    - exists (dropped st id q). split; [|split].
      + unfold dbind. rewrite (terminate_skips K p (S (S f)) id true st q Hq) by auto. rewrite (detach_eq K st id q Hq Ha), Er. reflexivity.
      + unfold made, farewell, dropped. rewrite Er. reflexivity.
      + intros i Hi. apply Nat.eqb_neq in Hi. unfold dropped. rewrite Er. cbn. rewrite nth_upd_nth, Hi. reflexivity.
    - exists (dropped st id q). split; [|split].
      + unfold dbind. rewrite (terminate_skips K p (S (S f)) id true st q Hq) by auto. rewrite (detach_eq K st id q Hq Ha), Er. reflexivity.
      + unfold made, farewell, dropped. rewrite Er. reflexivity.
      + intros i Hi. apply Nat.eqb_neq in Hi. unfold dropped. rewrite Er. cbn. rewrite nth_upd_nth, Hi. reflexivity.
  Qed.
  Definition farewell_of (st : dstate) (id : nat) : list kcall :=
    match nth_error (d_procs st) id with Some q => farewell p q id | None => [] end.
  Lemma quit_loop_obliged f l : running_linux p = true -> obliging K -> forall st, reg_inv st -> NoDup l ->
    (forall i, In i l -> exists q, nth_error (d_procs st) i = Some q /\ pr_is_attached q = true /\ pr_pid q <> 0) ->
    exists st', quit_loop K p (S (S f)) l st = (st', Ret tt) /\ made st st' (flat_map (farewell_of st) l).
  Proof.
    intros Hl Hob. induction l as [|id l IH]; intros st I Hn Hall; [exists st; split; reflexivity|].
    inversion Hn; subst. destruct (Hall id (or_introl eq_refl)) as (q & Hq & Ha & Hp).
    destruct (farewell_step f st id q Hl Hob I Hq Ha Hp) as (s1 & E1 & M1 & Hs).
    assert (ticks anything st s1) as T.
    { assert (within anything (dbind (terminate K p (S (S f)) id true) (fun _ => detach K id))) as Hw
        by (apply within_bind; [apply within_any_terminate|intros; apply within_detach]).
      specialize (Hw st). rewrite E1 in Hw. exact Hw. }
    destruct (IH s1) as (st' & E2 & M2).
    - eapply ticks_inv; eauto.
    - assumption.
    - intros i Hi. rewrite Hs; [apply Hall; now right|]. intros ->. contradiction.
    - exists st'. split.
      + cbn [quit_loop]. unfold dbind in E1 |- *. destruct (terminate K p (S (S f)) id true st) as [s0 [u|x]]; [|discriminate].
        destruct (detach K id s0) as [s0' [u'|x]]; [|discriminate]. injection E1 as ->. exact E2.
      + cbn [flat_map]. eapply made_trans; [|].
        * unfold farewell_of at 1. rewrite Hq. exact M1.
        * replace (flat_map (farewell_of st) l) with (flat_map (farewell_of s1) l); [exact M2|].
          assert (forall l', (forall i, In i l' -> i <> id) -> flat_map (farewell_of s1) l' = flat_map (farewell_of st) l') as Hf.
          { intros l'. induction l' as [|j l' IHl]; intros Hne; [reflexivity|]. cbn. rewrite IHl by (intros; apply Hne; now right).
            f_equal. unfold farewell_of. rewrite Hs by (apply Hne; now left). reflexivity. }
          apply Hf. intros i Hi ->. contradiction.
  Qed.
  Lemma quit_obliged f st : running_linux p = true -> obliging K -> reachable_plain K p st -> clean st ->
    (forall id q, registered st id -> nth_error (d_procs st) id = Some q -> pr_pid q <> 0) ->
    exists st', quit K p (S (S f)) st = (st', Ret tt) /\
      made st st' (flat_map (fun id => match nth_error (d_procs st) id with Some q => farewell p q id | None => [] end) (rev (d_list st))) /\
      forall id, registered st id -> ~ registered st' id.
  Proof.
    intros Hl Hob Hr Hc Hp. pose proof (reachable_inv _ _ _ Hr) as I.
    destruct (quit_loop_obliged f (rev (d_list st)) Hl Hob st I) as (st' & E & M).
    - apply NoDup_rev. apply I.
    - intros i Hi. apply in_rev in Hi. destruct (Hc i Hi) as (q & Hq & Ha). exists q. repeat split; auto. eapply Hp; eauto.
    - exists st'. split; [exact E|]. split; [exact M|]. eapply (quit_clears K p (S (S f))); eauto.
  Qed.
End Facts.
