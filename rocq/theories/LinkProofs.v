(** * LinkProofs: the calls of each command, and what they do to the process. *)
From Coq Require Import ZArith List Ascii Bool Lia.
From Verif Require Import PyBase Platform CallModel MemModel StructModel RegModel RegProofs BreakModel SessionModel SessionSpec LinkSpec.
From Verif Require TraceModel.
From Verif Require Import SigModel DbgModel GdbModel EffectSpec EffectProofs EffectProofs2.
Import ListNotations.
Open Scope Z_scope.

(** ** Runs that return *)
Section Ret.
  Context (env : history -> gcall -> ans).
  Lemma bind_ret {A B} (m : GM A) (f : A -> GM B) g g' b : gbind m f g = (g', Ret b) -> exists g1 a, m g = (g1, Ret a) /\ f a g1 = (g', Ret b).
  Proof. unfold gbind. destruct (m g) as [g1 [a|x]]; [eauto|discriminate]. Qed.
  Lemma ask_ret c g g' a : ask env c g = (g', Ret a) -> g' = push c a g /\ a = env (g_hist g) c.
  Proof. unfold ask. destruct (env (g_hist g) c); intros H; inversion H; subst; auto. Qed.
  Ltac asked := intros H; apply bind_ret in H as (g1 & a & H1 & H2); apply ask_ret in H1 as [-> _]; destruct a; try discriminate; cbn in H2; inversion H2; subst; reflexivity.
  Lemma unit_ret c g g' u : ask_unit env c g = (g', Ret u) -> g' = push c AUnit g.
  Proof. asked. Qed.
  Lemma int_ret c g g' z : ask_int env c g = (g', Ret z) -> g' = push c (AInt z) g.
  Proof. asked. Qed.
  Lemma procs_ret c g g' l : ask_procs env c g = (g', Ret l) -> g' = push c (AProcs l) g.
  Proof. asked. Qed.
  Lemma obj_ret c g g' o : ask_obj env c g = (g', Ret o) -> g' = push c (AObj o) g.
  Proof. asked. Qed.
  Lemma new_ret c g g' o : ask_new env c g = (g', Ret o) -> g' = push c (AObj (Some o)) g.
  Proof. intros H. apply bind_ret in H as (g1 & a & H1 & H2). apply ask_ret in H1 as [-> _]. destruct a as [| | | | | | |[o'|]| | |]; try discriminate. cbn in H2. inversion H2; subst. reflexivity. Qed.
  Lemma event_ret c g g' e : ask_event env c g = (g', Ret e) -> g' = push c (AEvent e) g.
  Proof. asked. Qed.
  (** Only looks: *)
  Definition light (h : history) : Prop := Forall (fun x => elsewhere (fst x) \/ reads_process (fst x)) h.
  Definition lightly (g g' : gstate) (h : history) : Prop :=
    g_hist g' = h ++ g_hist g /\ light h /\ g_process g' = g_process g /\ g_last g' = g_last g.
  Lemma light_app h1 h2 : light h1 -> light h2 -> light (h1 ++ h2).
  Proof. intros. now apply Forall_app. Qed.
  Ltac lights := split; [reflexivity|]; split; [unfold light; repeat (apply Forall_cons; [cbn; auto|]); apply Forall_nil|split; reflexivity].
  Lemma displayInstr_ret dis t g g' u : displayInstr dis env t g = (g', Ret u) -> exists h, lightly g g' h.
  Proof.
    unfold displayInstr. intros H. apply bind_ret in H as (g1 & a & H1 & H2). cbn in H1. inversion H1; subst. clear H1.
    unfold on_ptrace_error, gtry in H2. destruct dis.
    - unfold ask_int, gbind, ask in H2. destruct (env (g_hist a) (CDisassemble (g_process a))) eqn:Ea; cbn in H2; try discriminate H2.
      + inversion H2; subst. exists [(CLog (LInstr t z), AUnit); (CDisassemble (g_process a), AInt z)]. lights.
      + destruct x as [e|e]; [|discriminate]. destruct (TraceModel.is_ptrace_error e); [|discriminate]. inversion H2; subst.
        exists [(CLog (LNoInstr e), AUnit); (CDisassemble (g_process a), ARaise (XErr e))]. lights.
    - unfold ask_unit, gbind, ask in H2. destruct (env (g_hist a) (CDumpCode (g_process a) None None false)) eqn:Ea; cbn in H2; try discriminate H2.
      + inversion H2; subst. exists [(CDumpCode (g_process a) None None false, AUnit)]. lights.
      + destruct x as [e|e]; [|discriminate]. destruct (TraceModel.is_ptrace_error e); [|discriminate]. inversion H2; subst.
        exists [(CLog (LNoInstr e), AUnit); (CDumpCode (g_process a) None None false, ARaise (XErr e))]. lights.
  Qed.
  Lemma instrSize_ret dis a g g' o : readInstrSize dis env a g = (g', Ret o) -> exists h, lightly g g' h /\ forall n, o = Some n -> In (CInstrSize (g_process g) a, AInt n) h.
  Proof.
    unfold readInstrSize. destruct dis; cbn [negb].
    - intros H. apply bind_ret in H as (g1 & b & H1 & H2). cbn in H1. inversion H1; subst. clear H1.
      unfold on_ptrace_error, gtry, ask_int, gbind, ask in H2. destruct (env (g_hist b) (CInstrSize (g_process b) a)) eqn:Ea; cbn in H2; try discriminate H2.
      + inversion H2; subst. exists [(CInstrSize (g_process b) a, AInt z)]. split; [lights|]. intros n [= ->]. now left.
      + destruct x as [e|e]; [|discriminate]. destruct (TraceModel.is_ptrace_error e); [|discriminate]. inversion H2; subst.
        exists [(CLog (LNoSize a e), AUnit); (CInstrSize (g_process b) a, ARaise (XErr e))]. split; [lights|discriminate].
    - cbn. intros H. inversion H; subst. exists []. split; [lights|discriminate].
  Qed.
  Lemma or_ret {A} (m : GM A) f g g' o : or_message m f g = (g', Ret o) ->
    (exists g1 a, m g = (g1, Ret a) /\ f a g1 = (g', Ret o)) \/ (m g = (g', Raise (XErr EValueError)) /\ o = Some (MError EValueError)).
  Proof.
    unfold or_message. intros H. apply bind_ret in H as (g1 & r & H1 & H2). unfold gtry, gbind in H1. destruct (m g) as [g2 [a|x]] eqn:Em.
    - cbn in H1. inversion H1; subst. left. eauto.
    - destruct x as [[]|]; cbn in H1; try discriminate H1. inversion H1; subst. cbn in H2. inversion H2; subst. right. auto.
  Qed.
End Ret.

(** ** The process *)
Section World.
  Context (E : penv) (K : rkernel) (exec : program).
  Lemma explained_app h2 : forall h1 w w2, explained E K exec w (h2 ++ h1) w2 <-> exists w1, explained E K exec w h1 w1 /\ explained E K exec w1 h2 w2.
  Proof.
    induction h2 as [|[c a] h2 IH]; intros h1 w w2; cbn [app].
    - split; [intros H; exists w2; split; [exact H|constructor]|]. intros (w1 & H1 & H2). inversion H2; subst. exact H1.
    - split.
      + intros H. inversion H; subst. match goal with H : explained _ _ _ w (h2 ++ h1) _ |- _ => apply IH in H as (w3 & H3 & H4) end.
        exists w3. split; [exact H3|]. econstructor; eassumption.
      + intros (w1 & H1 & H2). inversion H2; subst. econstructor; [|eassumption]. apply IH. eauto.
  Qed.
  Lemma explained_cons h c a w w2 : explained E K exec w ((c, a) :: h) w2 -> exists w1, explained E K exec w h w1 /\ answered E K exec w1 c a w2.
  Proof. intros H. inversion H; subst. eauto. Qed.
  Lemma explained_nil w w2 : explained E K exec w [] w2 -> w2 = w.
  Proof. intros H. inversion H; subst. reflexivity. Qed.
  Lemma seen_refl st : seen st st.
  Proof. repeat split; auto. Qed.
  Lemma seen_trans a b c : seen a b -> seen b c -> seen a c.
  Proof. intros (A1 & A2 & A0 & A3 & A4 & A5 & A6) (B1 & B2 & B0 & B3 & B4 & B5 & B6). repeat split; try congruence; auto. Qed.
  Lemma seen_regs st rg : r_regs rg = r_regs (b_regs st) -> seen st (with_regs st rg).
  Proof. intros H. repeat split; auto. Qed.
  Lemma pointer_regs s : r_regs (fst (getInstrPointer K (e_p E) s)) = r_regs s.
  Proof. unfold getInstrPointer. destruct (CPU_INSTR_POINTER (e_p E)); [apply getreg_regs|reflexivity]. Qed.
  (** A look leaves the process as it is. *)
  Lemma look_seen st m c a w' : looks O c \/ elsewhere c \/ reads_process c -> answered E K exec (World st m) c a w' ->
    exists st', w' = World st' m /\ seen st st'.
  Proof.
    intros Hl H. inversion H; subst; try (match goal with H : _ = CWaitSignals \/ _ |- _ => destruct H; subst; cbn in Hl; intuition congruence end); try (exists st; split; [reflexivity|apply seen_refl]); try (cbn in Hl; intuition congruence).
    - eexists. split; [reflexivity|assumption].
    - eexists. split; [reflexivity|]. apply seen_regs. match goal with H : getInstrPointer _ _ _ = _ |- _ => pose proof (pointer_regs (b_regs st)) as P; rewrite H in P; exact P end.
  Qed.
  Lemma looks_seen st m h w' : Forall (fun x => looks O (fst x) \/ elsewhere (fst x) \/ reads_process (fst x)) h -> explained E K exec (World st m) h w' ->
    exists st', w' = World st' m /\ seen st st'.
  Proof.
    revert w'. induction h as [|[c a] h IH]; intros w' Hf H.
    - apply explained_nil in H. subst. exists st. split; [reflexivity|apply seen_refl].
    - inversion Hf; subst. apply explained_cons in H as (w1 & H1 & Ha). destruct (IH w1) as (st1 & -> & S1); [assumption|exact H1|].
      destruct (look_seen st1 m c a w') as (st2 & -> & S2); [assumption|exact Ha|]. exists st2. split; [reflexivity|]. eapply seen_trans; eassumption.
  Qed.
  Lemma light_seen st m h w' : light h -> explained E K exec (World st m) h w' -> exists st', w' = World st' m /\ seen st st'.
  Proof. intros Hl. apply looks_seen. eapply Forall_impl; [|exact Hl]. intros x [Hx|Hx]; auto. Qed.
  Lemma cont_inv st m a w' : answered E K exec (World st m) (CCont O 0) a w' -> m = Stopped /\ w' = World st Running.
  Proof. intros H. inversion H; subst; try contradiction; try (match goal with H : _ = CWaitSignals \/ _ |- _ => destruct H; discriminate end). auto. Qed.
  Lemma step_inv st m a w' : answered E K exec (World st m) (CStep O) a w' -> m = Stopped /\ w' = World st Stepping.
  Proof. intros H. inversion H; subst; try contradiction; try (match goal with H : _ = CWaitSignals \/ _ |- _ => destruct H; discriminate end). auto. Qed.
  Lemma running_inv st c a w' : c = CWaitSignals \/ c = CWait O SIGTRAP -> answered E K exec (World st Running) c a w' -> exists k r, w' = World (stopped_with st k r) Stopped /\
    a = AEvent (ProcessSignal SIGTRAP O) /\ continued (e_p E) exec (s_mem (b_mem st)) (r_regs (b_regs st)) k r.
  Proof. intros [->| ->] H; inversion H; subst; try contradiction; eauto. Qed.
  Lemma stepping_inv st c a w' : c = CWaitSignals \/ c = CWait O SIGTRAP -> answered E K exec (World st Stepping) c a w' -> exists k r, w' = World (stopped_with st k r) Stopped /\
    a = AEvent (ProcessSignal SIGTRAP O) /\ single_stepped (e_p E) exec (s_mem (b_mem st)) (r_regs (b_regs st)) k r.
  Proof. intros [->| ->] H; inversion H; subst; try contradiction; eauto. Qed.
  Lemma create_inv st m a size r w' : answered E K exec (World st m) (CCreateBreakpoint O a size) r w' ->
    m = Stopped /\ exists st' o, createBreakpoint E a size st = (st', o) /\ r = answer_of (fun id => AObj (Some id)) o /\ w' = World st' Stopped.
  Proof. intros H. inversion H; subst; try contradiction; try (match goal with H : _ = CWaitSignals \/ _ |- _ => destruct H; discriminate end). eauto 8. Qed.
  Lemma remove_inv st m id b r w' : answered E K exec (World st m) (CDesinstall id b) r w' ->
    m = Stopped /\ exists st' o, desinstall E K id b st = (st', o) /\ r = answer_of (fun _ => AUnit) o /\ w' = World st' Stopped.
  Proof. intros H. inversion H; subst; try contradiction; try (match goal with H : _ = CWaitSignals \/ _ |- _ => destruct H; discriminate end). eauto 8. Qed.
  Lemma find_inv st m a r w' : answered E K exec (World st m) (CFindBreakpoint O a) r w' -> m = Stopped /\ r = AObj (findBreakpoint a st) /\ w' = World st m.
  Proof. intros H. inversion H; subst; try contradiction; try (match goal with H : _ = CWaitSignals \/ _ |- _ => destruct H; discriminate end). auto. Qed.
  Lemma pointer_inv st m r w' : answered E K exec (World st m) (CGetIP O) r w' ->
    m = Stopped /\ exists rg o, getInstrPointer K (e_p E) (b_regs st) = (rg, o) /\ r = answer_of AInt o /\ w' = World (with_regs st rg) Stopped.
  Proof. intros H. inversion H; subst; try contradiction; try (match goal with H : _ = CWaitSignals \/ _ |- _ => destruct H; discriminate end). eauto 8. Qed.
  Lemma procs_inv w r w' : answered E K exec w CProcesses r w' -> r = AProcs [O] /\ w' = w.
  Proof. intros H. inversion H; subst; try contradiction; try (match goal with H : _ = CWaitSignals \/ _ |- _ => destruct H; discriminate end). auto. Qed.
  Lemma else_inv w c r w' : elsewhere c -> answered E K exec w c r w' -> w' = w.
  Proof. intros Hc H. inversion H; subst; try reflexivity; try contradiction; try (match goal with H : _ = CWaitSignals \/ _ |- _ => destruct H; subst; contradiction end). destruct c; contradiction. Qed.
End World.
