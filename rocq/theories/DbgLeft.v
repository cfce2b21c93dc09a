From Coq Require Import ZArith List Ascii String Bool Lia.
From Verif Require Import PyBase PyFacts Platform DbgModel DbgSpec DbgProofs DbgProofs2 DbgProofs3 DbgProofs4 DbgProofs5.
Import ListNotations.
Open Scope Z_scope.

(** ** What a failed addProcess leaves in the registry (C27) *)
Section Facts.
  Context (K : dkernel) (p : platform).
  Context (Hl : running_linux p = true) (Hmsg : forall n q, k_msg K n q <> Ok 0).

  Definition raises_nothing {A} (id : nat) (o : out A) : Prop := forall s c, o <> Raise (XEvent (ProcessExit id s c)).
  Definition told_nothing (id : nat) (o : out (option event)) : Prop :=
    raises_nothing id o /\ forall s c, o <> Ret (Some (ProcessExit id s c)).

  Lemma in_ddel (k : Z) (pid : Z) (id : nat) d : k <> pid -> In (pid, id) d -> In (pid, id) (ddel Z.eqb k d).
  Proof.
    intros Hk. induction d as [|[k' v] d IH]; cbn; [easy|]. intros [[= -> ->]|H].
    - destruct (k =? pid) eqn:E; [apply Z.eqb_eq in E; congruence|]. now left.
    - destruct (k =? k'); [exact H|right; auto].
  Qed.
  Lemma gone_keeps st i q pid id : pr_pid q <> pid -> In (pid, id) (d_dict st) -> In (pid, id) (d_dict (gone st i q)).
  Proof. intros Hn H. unfold gone. destruct (pr_is_attached q); cbn; [now apply in_ddel|exact H]. Qed.
  Lemma gone_drops st i q : reg_inv st -> nth_error (d_procs st) i = Some q -> pr_is_attached q = true -> ~ registered (gone st i q) i.
  Proof.
    intros I Hq Ha. destruct (gone_facts st i q Hq) as (_ & _ & _ & D & _). apply D; [exists q; auto|now apply reg_ok].
  Qed.
  Lemma start_inv pid a par th st : reg_inv st -> dmem Z.eqb pid (d_dict st) = false -> reg_inv (start pid a par th st).
  Proof.
    intros I Hm. unfold start. eapply (tick_inv anything); [apply t_new|].
    - destruct a; exact Hm.
    - reflexivity.
    - destruct a; [exact I|]. apply inv_call; [discriminate|exact I].
  Qed.
  Lemma in_dset (k pid : Z) (v id : nat) d : k <> pid -> In (pid, id) d -> In (pid, id) (dset Z.eqb k v d).
  Proof.
    intros Hk. induction d as [|[k' v'] d IH]; cbn; [easy|]. intros [[= -> ->]|H].
    - destruct (k =? pid) eqn:E; [apply Z.eqb_eq in E; congruence|]. now left.
    - destruct (k =? k'); right; auto.
  Qed.
  Lemma start_keeps k a par th st pid id : k <> pid -> In (pid, id) (d_dict st) -> In (pid, id) (d_dict (start k a par th st)).
  Proof. intros Hk H. unfold start, enrol. destruct a; cbn; now apply in_dset. Qed.

  (** the tail of addProcess touches only the log of calls *)
  Lemma options_keeps i v st : d_dict (fst (setoptions K p i v st)) = d_dict st /\ d_list (fst (setoptions K p i v st)) = d_list st /\
    forall id, raises_nothing id (snd (setoptions K p i v st)).
  Proof.
    unfold setoptions, dbind, get_proc, raises_nothing. destruct (nth_error _ i); cbn; [|split; [|split]; try reflexivity; discriminate].
    destruct (negb _); cbn; [split; [|split]; try reflexivity; discriminate|].
    unfold request. destruct (k_do K _ _); cbn; split; try split; try reflexivity; discriminate.
  Qed.

  Definition leaves_others (f : nat) : Prop := forall pid' b st id' pid id, reg_inv st -> dget Z.eqb pid' (d_dict st) = Some id' -> pid' <> 0 ->
    pid' <> pid -> In (pid, id) (d_dict st) ->
    In (pid, id) (d_dict (fst (wait K p f (QPid pid' b) st))) /\ told_nothing id (snd (wait K p f (QPid pid' b) st)).

  Lemma signals_of f pid st id :
    let w := wait K p f (QPid pid true) st in
    let s := waitSignals K p f [SIGTRAP; SIGSTOP] (Some pid) st in
    fst s = fst w /\ (told_nothing id (snd w) -> raises_nothing id (snd s)) /\
    forall x y, snd w = Ret (Some (ProcessExit id x y)) -> snd s = Raise (XEvent (ProcessExit id x y)).
  Proof.
    unfold waitSignals, waitSignals_, dbind, wait_event_query. cbv zeta. destruct (wait K p f (QPid pid true) st) as [s o]. cbn.
    destruct o as [[[]|]|x]; cbn; try (split; [reflexivity|split; [intros [Q1 Q2] ? ?; try discriminate; try (intros [= -> -> ->]; eapply Q2; reflexivity)|
      intros ? ?; try discriminate; try (intros [= -> -> ->]; reflexivity)]]).
    - destruct (_ || _)%bool; cbn; (split; [reflexivity|split; [intros _ ? ?; discriminate|intros ? ?; discriminate]]).
    - intros [= ->]. apply (Q1 s0 c). reflexivity.
  Qed.

  Lemma add_keeps f pid' par th st pid id : leaves_others f -> reg_inv st -> pid' <> 0 -> In (pid, id) (d_dict st) ->
    In (pid, id) (d_dict (fst (addProcess K p f pid' true par th st))) /\ raises_nothing id (snd (addProcess K p f pid' true par th st)).
  Proof.
    intros IH I H0 Hin. destruct (dmem Z.eqb pid' (d_dict st)) eqn:Em.
    { rewrite add_duplicate by exact Em. cbn. split; [exact Hin|intros ? ?; discriminate]. }
    assert (pid' <> pid) as Hne.
    { intros ->. unfold dmem in Em. rewrite (dget_NoDup_In Z.eqb Z.eqb_eq _ _ _ (ri_keys _ I) Hin) in Em. discriminate. }
    rewrite (add_eq K p f pid' true par th st Em) by discriminate. cbn zeta.
    set (i := List.length (d_procs st)). set (s1 := start pid' true par th st).
    assert (reg_inv s1) as I1 by now apply start_inv.
    assert (dget Z.eqb pid' (d_dict s1) = Some i) as Hd.
    { change pid' with (pr_pid (Proc pid' true false true true true th par)). apply reg_dget; [exact I1|apply start_nth|reflexivity]. }
    assert (In (pid, id) (d_dict s1)) as Hin1 by now apply start_keeps.
    destruct (IH pid' true s1 i pid id I1 Hd H0 Hne Hin1) as [W1 W2].
    destruct (signals_of f pid' s1 id) as (S1 & S2 & _). specialize (S2 W2). rewrite <- S1 in W1. clear S1 W2 IH.
    unfold handshake. destruct (waitSignals K p f _ _ s1) as [s o]. cbn [fst snd] in *.
    assert (forall s0 : dstate, In (pid, id) (d_dict s0) ->
      let r := (if has_ptrace_events p && negb (d_options s0 =? 0) then
        match setoptions K p i (d_options s0) s0 with (st, Ret _) => (st, Ret i) | (st, Raise x) => (st, Raise x) end else (s0, Ret i)) in
      In (pid, id) (d_dict (fst r)) /\ raises_nothing id (snd r)) as Htail.
    { intros s0 H. cbv zeta. destruct (_ && _); [|cbn; split; [exact H|intros ? ?; discriminate]].
      destruct (options_keeps i (d_options s0) s0) as (O1 & _ & O2). specialize (O2 id).
      destruct (setoptions K p i (d_options s0) s0) as [s2 [u|x]]; cbn in *; rewrite O1; (split; [exact H|]).
      - intros ? ?; discriminate.
      - intros ? ? [= ->]. eapply O2. reflexivity. }
    assert (forall x, raises_nothing id (@Raise event x) -> In (pid, id) (d_dict (upd s i (set_attached false))) /\ raises_nothing id (@Raise nat x)) as Hr.
    { intros x Hx. split; [exact W1|]. intros ? ? [= ->]. eapply Hx. reflexivity. }
    destruct o as [u|[e|ev]]; [now apply Htail| |].
    - destruct e; try (apply Hr; intros ? ?; discriminate). now apply Htail.
    - destruct ev; try (apply Hr; exact S2). unfold request.
      destruct (k_do K _ _); cbn zeta; [apply (Htail (add_call s _)); exact W1|]. cbn. split; [exact W1|intros ? ?; discriminate].
  Qed.

  (** what is told about a process, told by the status of that process *)
  Lemma status_other_keeps f i status q st pid id : leaves_others f -> reg_inv st -> nth_error (d_procs st) i = Some q -> i <> id ->
    pr_pid q <> pid -> In (pid, id) (d_dict st) ->
    In (pid, id) (d_dict (fst (processStatus K p f i status st))) /\ raises_nothing id (snd (processStatus K p f i status st)) /\
    forall s c, snd (processStatus K p f i status st) <> Ret (ProcessExit id s c).
  Proof.
    intros IH I Hq Hi Hp Hin. assert (0 <= status mod 128 < 128) as Hb by (apply Z.mod_pos_bound; lia).
    destruct (Z.eq_dec (status mod 128) 0) as [E|E].
    { rewrite (status_exit_eq K p f i status q st Hl Hq E). cbn. split; [now apply gone_keeps|]. split; intros ? ?; congruence. }
    destruct (Z.eq_dec (status mod 128) 127) as [E'|E'].
    2:{ rewrite (status_killed_eq K p f i status q st Hq) by lia. cbn. split; [now apply gone_keeps|]. split; intros ? ?; congruence. }
    destruct (Z.eq_dec (status mod 256) 127) as [E2|E2].
    2:{ rewrite status_meaningless by (split; assumption). cbn. split; [exact Hin|]. split; intros ? ?; discriminate. }
    destruct (Z.eq_dec (status / 65536) 0) as [E3|E3].
    { rewrite status_stop by auto. cbn. split; [exact Hin|]. split; intros ? ?; discriminate. }
    destruct (Z.eq_dec (status / 65536) 4) as [E4|E4].
    { rewrite status_exec by auto. cbn. split; [exact Hin|]. split; intros ? ?; discriminate. }
    assert (1 <= status / 65536 <= 3 \/ ~ 0 <= status / 65536 <= 4) as [E5|E5] by lia.
    2:{ rewrite status_other by auto. cbn. split; [exact Hin|]. split; intros ? ?; discriminate. }
    rewrite (status_new K p f i status q st Hl Hq E2 E5). cbn zeta.
    pose proof (Hmsg (List.length (d_calls st)) (pr_pid q)) as Hz. destruct (k_msg K _ _) as [m|e]; [|cbn; split; [exact Hin|]; split; intros ? ?; discriminate].
    match goal with |- context [addProcess K p f m true ?a ?b ?s] => pose proof (add_keeps f m a b s pid id IH) as Ha; destruct (addProcess K p f m true a b s) as [s2 [u|x]] end;
      (destruct Ha as [A1 A2]; [apply inv_call; [discriminate|exact I]|congruence|exact Hin|]); cbn in *; (split; [exact A1|]); split; intros ? ?; try discriminate.
    intros [= ->]. eapply A2. reflexivity.
  Qed.
  Lemma dict_ids st pid pid' id id' : reg_inv st -> In (pid, id) (d_dict st) -> In (pid', id') (d_dict st) -> pid' <> pid -> id' <> id.
  Proof.
    intros I H H' Hne ->. destruct (ri_dict _ I _ _ H) as (q & Hq & Hp). destruct (ri_dict _ I _ _ H') as (q' & Hq' & Hp'). congruence.
  Qed.
  Lemma others_all f : leaves_others f.
  Proof.
    induction f as [|f IH]; intros pid' b st id' pid id I Hd H0 Hne Hin.
    { cbn. split; [exact Hin|]. split; intros ? ?; discriminate. }
    assert (In (pid', id') (d_dict st)) as Hin' by (apply (dget_In Z.eqb Z.eqb_eq); exact Hd).
    destruct (ri_dict _ I _ _ Hin') as (q & Hq & Hp). pose proof (dict_ids _ _ _ _ _ I Hin Hin' Hne) as Hid.
    rewrite (wait_pid_eq K p f pid' b st id' q Hl H0 Hd Hq). cbn zeta. set (s1 := add_call st _).
    assert (reg_inv s1) as I1 by (apply inv_call; [discriminate|exact I]).
    destruct (k_wait K _ _ _) as [[r status]|e].
    - destruct (r =? pid').
      + destruct (status_other_keeps f id' status q s1 pid id IH I1 Hq Hid) as (A1 & A2 & A3); [congruence|exact Hin|].
        unfold processStatus in *. destruct (processStatus_ K p (wait K p f) id' status s1) as [s2 [ev|x]]; cbn in *; (split; [exact A1|]);
          split; intros ? ?; try discriminate; intros [= ->]; [eapply A3|eapply A2]; reflexivity.
      + destruct (_ || _)%bool; cbn; (split; [exact Hin|]); split; intros ? ?; discriminate.
    - destruct e; try (cbn; split; [exact Hin|]; split; intros ? ?; discriminate).
      destruct (errno =? ECHILD); cbn; [|split; [exact Hin|]; split; intros ? ?; discriminate].
      split; [apply gone_keeps; [congruence|exact Hin]|]. split; intros ? ?; congruence.
  Qed.

  (** the process that is waited for *)
  Lemma wait_own f pid st id q : reg_inv st -> nth_error (d_procs st) id = Some q -> pr_is_attached q = true -> pr_pid q = pid -> pid <> 0 ->
    let r := wait K p f (QPid pid true) st in
    (In (pid, id) (d_dict (fst r)) /\ told_nothing id (snd r)) \/
    (~ registered (fst r) id /\ exists s c, snd r = Ret (Some (ProcessExit id s c))).
  Proof.
    intros I Hq Ha Hp H0. assert (dget Z.eqb pid (d_dict st) = Some id) as Hd by (rewrite <- Hp; now apply reg_dget).
    assert (In (pid, id) (d_dict st)) as Hin by (rewrite <- Hp; now apply (ri_att _ I)).
    destruct f as [|f]; cbv zeta. { left. cbn. split; [exact Hin|]. split; intros ? ?; discriminate. }
    rewrite (wait_pid_eq K p f pid true st id q Hl H0 Hd Hq). cbn zeta. set (s1 := add_call st _).
    assert (reg_inv s1) as I1 by (apply inv_call; [discriminate|exact I]).
    assert (~ registered (gone s1 id q) id) as Hg by (apply gone_drops; [exact I1|exact Hq|exact Ha]).
    destruct (k_wait K _ _ _) as [[r status]|e].
    2:{ destruct e; try (left; cbn; split; [exact Hin|]; split; intros ? ?; discriminate).
        destruct (errno =? ECHILD); [right; cbn; eauto|left; cbn; split; [exact Hin|]; split; intros ? ?; discriminate]. }
    destruct (r =? pid); [|left; cbn; split; [exact Hin|]; split; intros ? ?; discriminate].
    fold (processStatus K p f id status s1).
    assert (0 <= status mod 128 < 128) as Hb by (apply Z.mod_pos_bound; lia).
    destruct (Z.eq_dec (status mod 128) 0) as [E|E].
    { rewrite (status_exit_eq K p f id status q s1 Hl Hq E). right. cbn. eauto. }
    destruct (Z.eq_dec (status mod 128) 127) as [E'|E'].
    2:{ rewrite (status_killed_eq K p f id status q s1 Hq) by lia. right. cbn. eauto. }
    left. destruct (Z.eq_dec (status mod 256) 127) as [E2|E2].
    2:{ rewrite status_meaningless by (split; assumption). cbn. split; [exact Hin|]. split; intros ? ?; discriminate. }
    destruct (Z.eq_dec (status / 65536) 0) as [E3|E3].
    { rewrite status_stop by auto. cbn. split; [exact Hin|]. split; intros ? ?; discriminate. }
    destruct (Z.eq_dec (status / 65536) 4) as [E4|E4].
    { rewrite status_exec by auto. cbn. split; [exact Hin|]. split; intros ? ?; discriminate. }
    assert (1 <= status / 65536 <= 3 \/ ~ 0 <= status / 65536 <= 4) as [E5|E5] by lia.
    2:{ rewrite status_other by auto. cbn. split; [exact Hin|]. split; intros ? ?; discriminate. }
    rewrite (status_new K p f id status q s1 Hl Hq E2 E5). cbn zeta.
    pose proof (Hmsg (List.length (d_calls s1)) (pr_pid q)) as Hz. destruct (k_msg K _ _) as [m|e]; [|cbn; split; [exact Hin|]; split; intros ? ?; discriminate].
    match goal with |- context [addProcess K p f m true ?a ?b ?s] => pose proof (add_keeps f m a b s pid id (others_all f)) as Hk; destruct (addProcess K p f m true a b s) as [s2 [u|x]] end;
      (destruct Hk as [A1 A2]; [apply inv_call; [discriminate|exact I1]|congruence|exact Hin|]); cbn in *; (split; [exact A1|]); split; intros ? ?; try discriminate.
    intros [= ->]. eapply A2. reflexivity.
  Qed.

  Lemma add_left f pid (a : bool) par th st st' x : reg_inv st -> pid <> 0 -> dmem Z.eqb pid (d_dict st) = false ->
    (a = false -> exists u, k_do K (List.length (d_calls st)) (KAttach pid) = Ok u) ->
    addProcess K p f pid a par th st = (st', Raise x) ->
    (registered st' (List.length (d_procs st)) <-> forall s c, x <> XEvent (ProcessExit (List.length (d_procs st)) s c)).
  Proof.
    intros I H0 Hm Ha. rewrite (add_eq K p f pid a par th st Hm Ha). cbn zeta.
    set (id := List.length (d_procs st)). set (s1 := start pid a par th st).
    assert (reg_inv s1) as I1 by now apply start_inv.
    pose proof (start_nth pid a par th st) as Hq. fold s1 id in Hq.
    pose proof (wait_own f pid s1 id _ I1 Hq eq_refl eq_refl H0) as Hw. cbv zeta in Hw.
    pose proof (within_any_signals K p f [SIGTRAP; SIGSTOP] (Some pid) s1) as Ht.
    assert (reg_inv (fst (waitSignals K p f [SIGTRAP; SIGSTOP] (Some pid) s1))) as I2 by (eapply ticks_inv; [exact Ht|exact I1]).
    destruct (signals_of f pid s1 id) as (S1 & S2 & S3). rewrite <- S1 in Hw.
    unfold handshake. destruct (waitSignals K p f _ _ s1) as [s o]. cbn [fst snd] in *.
    intros H. destruct Hw as [[W1 W2]|[W1 (y & z & W2)]].
    - specialize (S2 W2). assert (registered s id) as Hr.
      { unfold registered. rewrite (ri_list _ I2). apply (in_map snd _ _ W1). }
      cut (registered st' id /\ forall s c, x <> XEvent (ProcessExit id s c)). { intros [A B]. split; auto. }
      assert (forall s0 : dstate, registered s0 id ->
        (if has_ptrace_events p && negb (d_options s0 =? 0) then
          match setoptions K p id (d_options s0) s0 with (st, Ret _) => (st, Ret id) | (st, Raise x) => (st, Raise x) end else (s0, Ret id)) =
        (st', Raise x) -> registered st' id /\ forall s c, x <> XEvent (ProcessExit id s c)) as Htail.
      { intros s0 Hs. destruct (_ && _); [|discriminate].
        destruct (options_keeps id (d_options s0) s0) as (_ & O1 & O2). specialize (O2 id).
        destruct (setoptions K p id (d_options s0) s0) as [s2 [u|x']]; cbn in *; intros [= <- <-]. unfold registered. rewrite O1. split; [exact Hs|].
        intros y z ->. eapply O2. reflexivity. }
      assert (forall x' : dexn, raises_nothing id (@Raise event x') -> (upd s id (set_attached false), @Raise nat x') = (st', Raise x) ->
         registered st' id /\ forall s c, x <> XEvent (ProcessExit id s c)) as Hx.
      { intros x' Hx' [= <- <-]. split; [exact Hr|]. intros y z ->. eapply Hx'. reflexivity. }
      destruct o as [u|[e|ev]]; [now apply (Htail s)| |].
      + destruct e; try (revert H; apply Hx; intros ? ?; discriminate). now apply (Htail s).
      + destruct ev; try (revert H; apply Hx; exact S2). unfold request in H. destruct (k_do K (List.length (d_calls s)) (KDisplay process signum)); cbn zeta in H.
        * apply (Htail (add_call s (KDisplay process signum)) Hr H).
        * injection H as <- <-. split; [exact Hr|]. intros ? ?; discriminate.
    - specialize (S3 y z W2). subst o. injection H as <- <-. split.
      + intros Hr. exfalso. apply W1. exact Hr.
      + intros Hn. exfalso. eapply Hn. reflexivity.
  Qed.
  Lemma add_left_reachable f pid (a : bool) par th st st' x : reachable_plain K p st -> pid <> 0 -> dmem Z.eqb pid (d_dict st) = false ->
    (a = false -> exists u, k_do K (List.length (d_calls st)) (KAttach pid) = Ok u) ->
    addProcess K p f pid a par th st = (st', Raise x) ->
    (registered st' (List.length (d_procs st)) <-> forall s c, x <> XEvent (ProcessExit (List.length (d_procs st)) s c)).
  Proof. intros Hr. apply add_left. now apply reachable_inv in Hr. Qed.
End Facts.
