(** * LiveProofs3: the commands of gdb.py at a process that gets signals. *)
From Coq Require Import ZArith List Ascii Bool Lia.
From Verif Require Import PyBase Platform CallModel MemModel MemSpec StructModel RegModel RegSpec RegProofs BreakModel BreakSpec BreakProofs SessionModel SessionSpec SessionProofs2 SessionProofs4 LinkSpec.
From Verif Require TraceModel.
From Verif Require Import SigModel DbgModel GdbModel GdbProofs2 EffectSpec EffectProofs EffectProofs2 LinkProofs LinkProofs2 LinkProofs3 LiveSpec LiveProofs LiveProofs2.
Import ListNotations.
Open Scope Z_scope.

(** ** Histories without signals *)
Definition tranquil (x : gcall * ans) : Prop :=
  match x with
  | (CCont _ s, _) => s = 0
  | (CWaitSignals, _) => False
  | (CWait _ _, ARaise (XEvent _)) => False
  | _ => True
  end.
Lemma reported_app h1 h2 : reported (h2 ++ h1) = reported h1 ++ reported h2.
Proof. unfold reported. now rewrite rev_app_distr, flat_map_app. Qed.
Lemma delivered_app h1 h2 : delivered (h2 ++ h1) = delivered h1 ++ delivered h2.
Proof. unfold delivered. now rewrite rev_app_distr, flat_map_app. Qed.
Lemma tranquil_signals h : Forall tranquil h -> reported h = [] /\ delivered h = [].
Proof.
  induction 1 as [|[c a] h Hx _ [IH1 IH2]]; [split; reflexivity|]. change ((c, a) :: h) with ([(c, a)] ++ h). rewrite reported_app, delivered_app, IH1, IH2. cbn [app].
  destruct c; try (split; reflexivity); try contradiction; try (cbn in Hx; rewrite Hx; split; [reflexivity|destruct a; reflexivity]).
  split; [|reflexivity]. destruct a as [| | | | | | | | | |[e|ev]]; try reflexivity. contradiction.
Qed.
Lemma light_tranquil h : light h -> Forall tranquil h.
Proof. apply Forall_impl. intros [c a]. destruct c; cbn; intuition. Qed.
Lemma lawful_tranquil k h : plain_command k -> k <> KCont -> ~ is_step k -> k <> KStepi -> lawful O k h -> Forall tranquil h.
Proof.
  intros Hk N1 N2 N3. induction h as [|[c a] h IH]; intros H; [constructor|]. destruct H as [M L]. constructor; [|now apply IH].
  destruct M; try exact I; try contradiction; try congruence; try (match goal with H : is_cont ?k |- _ => destruct k; try contradiction; try congruence; cbn in Hk; discriminate Hk end).
  match goal with H : looks _ ?c |- _ => destruct c; try exact I; contradiction end.
Qed.

Section World.
  Context (E : penv) (K : rkernel) (exec : program) (G : signals).
  Local Notation answered_s := (answered_s E K exec G).
  Local Notation explained_s := (explained_s E K exec G).
  Lemma es_app h2 : forall h1 w w2, explained_s w (h2 ++ h1) w2 -> exists w1, explained_s w h1 w1 /\ explained_s w1 h2 w2.
  Proof.
    induction h2 as [|[c a] h2 IH]; intros h1 w w2 H; cbn [app] in H.
    - exists w2. split; [exact H|constructor].
    - inversion H; subst. match goal with H : LiveSpec.explained_s _ _ _ _ w (h2 ++ h1) _ |- _ => apply IH in H as (w3 & H3 & H4) end. exists w3. split; [exact H3|]. econstructor; eassumption.
  Qed.
  Lemma es_cons h c a w w2 : explained_s w ((c, a) :: h) w2 -> exists w1, explained_s w h w1 /\ answered_s w1 c a w2.
  Proof. intros H. inversion H; subst. eauto. Qed.
  Lemma es_nil w w2 : explained_s w [] w2 -> w2 = w.
  Proof. intros H. inversion H; subst. reflexivity. Qed.
  Lemma as_plain w c a w' : tranquil (c, a) -> answered_s w c a w' -> answered E K exec w c a w'.
  Proof. intros T H. inversion H; subst; cbn in T; try contradiction; try congruence; assumption. Qed.
  Lemma es_plain h : forall w w', Forall tranquil h -> explained_s w h w' -> explained E K exec w h w'.
  Proof.
    induction h as [|[c a] h IH]; intros w w' T H.
    - apply es_nil in H. subst. constructor.
    - inversion T; subst. apply es_cons in H as (w1 & H1 & A). econstructor; [apply IH; eassumption|now apply as_plain].
  Qed.
  Lemma light_es st m h w' : light h -> explained_s (World st m) h w' -> exists st', w' = World st' m /\ seen st st'.
  Proof. intros L W. eapply light_seen; [exact L|]. apply es_plain; [now apply light_tranquil|exact W]. Qed.
  (** Only waiting raises events. *)
  Lemma as_event w c a w' ev : answered_s w c a w' -> a = ARaise (XEvent ev) -> c = CWait O SIGTRAP /\ exists s, ev = signal s.
  Proof. intros H ->. inversion H; subst; try (match goal with H : forall ev, _ <> _ |- _ => exfalso; eapply H; reflexivity end); eauto. Qed.
  Lemma es_event h : forall w w' c ev, explained_s w h w' -> In (c, ARaise (XEvent ev)) h -> c = CWait O SIGTRAP /\ exists s, ev = signal s.
  Proof.
    induction h as [|[c a] h IH]; intros w w' c' ev H Hi; [destruct Hi|]. apply es_cons in H as (w1 & H1 & A). destruct Hi as [[= -> ->]|Hi]; [exact (as_event _ _ _ _ _ A eq_refl)|exact (IH _ _ _ _ H1 Hi)].
  Qed.
  Lemma waits_inv st a w' : answered_s (World st Running) CWaitSignals a w' ->
    (exists k r, w' = World (stopped_with st k r) Stopped /\ a = AEvent (signal SIGTRAP) /\ continued (e_p E) exec (s_mem (b_mem st)) (r_regs (b_regs st)) k r) \/
    (exists k r s, w' = World (stopped_with st k r) Stopped /\ a = AEvent (signal s) /\ ran (e_p E) exec (s_mem (b_mem st)) (r_regs (b_regs st)) k r /\ comes G s k r).
  Proof.
    intros H. inversion H as [w c a0 w1 A N| |st0 s k r R C| |]; subst.
    - left. apply running_inv in A as (k & r & -> & -> & R); [|auto]. eauto 6.
    - right. eauto 8.
  Qed.
  Lemma step_event_inv st ev w' : answered_s (World st Running) (CWait O SIGTRAP) (ARaise (XEvent ev)) w' ->
    exists k r s, w' = World (stopped_with st k r) Stopped /\ ev = signal s /\ ran (e_p E) exec (s_mem (b_mem st)) (r_regs (b_regs st)) k r /\ comes G s k r.
  Proof. intros H. inversion H as [w c a0 w1 A N| | |st0 s k r R C|]; subst; [exfalso; eapply N; reflexivity|]. eauto 8. Qed.
  Lemma stepi_event_inv st ev w' : answered_s (World st Stepping) (CWait O SIGTRAP) (ARaise (XEvent ev)) w' ->
    exists s, w' = World st Stopped /\ ev = signal s /\ comes G s (s_mem (b_mem st)) (r_regs (b_regs st)).
  Proof. intros H. inversion H as [w c a0 w1 A N| | | |st0 s C]; subst; [exfalso; eapply N; reflexivity|]. eauto 8. Qed.
  Lemma deliver_inv st m s a w' : s <> 0 -> answered_s (World st m) (CCont O s) a w' -> m = Stopped /\ exists k r, w' = World (stopped_with st k r) Running /\ delivers G s (s_mem (b_mem st)) (r_regs (b_regs st)) k r.
  Proof.
    intros N H. inversion H as [w c a0 w1 A _|st0 s0 k r _ D| | |]; subst.
    - inversion A; subst; try contradiction; match goal with H : _ = CWaitSignals \/ _ |- _ => destruct H; discriminate end.
    - eauto 6.
  Qed.
End World.

Section Commands.
  Context (E : penv) (K : rkernel) (exec : program) (G : signals).
  Context (ns : SigModel.namespace) (dis : bool) (eval : text -> res PyEval.pyval) (env : history -> gcall -> ans).
  Let p := e_p E.
  Local Notation reads g := (reads_at E eval env g).
  Local Notation answered_s := (answered_s E K exec G).
  Local Notation explained_s := (explained_s E K exec G).
  (** The command asked for exactly [l], which happened. *)
  Definition acts_s (g : gstate) (o : option Z) (k : GdbModel.command) (st : bstate) (h : history) (w1 : world) (g1 : gstate) : Prop :=
    exists l st1 o1 d n, w1 = World st1 Stopped /\ means (reads g) k h l /\ (forall l', means (reads g) k h l' -> l' = l) /\ overseen E K exec G st o l st1 o1 d n /\
      g_process g1 = O /\ g_last g1 = last_signal o1 /\ o1 <> Some 0 /\ delivered h = d /\ reported h = n.

  (** *** cont *)
  Lemma cont_acts_s g g1 o h st w1 : g_process g = O -> g_last g = last_signal o -> o <> Some 0 -> forall u, gdb_cont p env 0 g = (g1, Ret u) -> g_hist g1 = h ++ g_hist g ->
    explained_s (World st Stopped) h w1 -> acts_s g o KCont st h w1 g1.
  Proof.
    intros Hp Hl Ho u0 H Hh W. assert (forall l', means (reads g) KCont h l' -> l' = [Continue]) as Hm.
    { intros l' M. inversion M; subst; try reflexivity; try discriminate. match goal with H : _ \/ _ \/ _ |- _ => destruct H as [H|[H|H]]; discriminate H end. }
    unfold gdb_cont in H. apply bind_ret in H as (g2 & l & H1 & H). apply procs_ret in H1. subst g2.
    apply bind_ret in H as (g2 & u & H1 & H). pose proof (loop_ret _ _ _ _ _ _ H1) as (h1 & G1). cbn [push g_hist] in G1.
    apply bind_ret in H as (g3 & ev & H3 & H). apply event_ret in H3. subst g3.
    assert (exists h2, g_hist g1 = h2 ++ (CWaitSignals, AEvent ev) :: h1 ++ (CProcesses, AProcs l) :: g_hist g) as (h2 & G2).
    { rewrite <- G1. change ((CWaitSignals, AEvent ev) :: g_hist g2) with (g_hist (push CWaitSignals (AEvent ev) g2)). destruct ev as [?|?|?|s id]; try discriminate H. destruct (s =? SIGTRAP).
      - apply bind_ret in H as (g3 & g3' & H3 & H). cbn in H3. inversion H3; subst g3 g3'. clear H3. apply bind_ret in H as (g3 & ip & H3 & H). apply int_ret in H3. subst g3.
        apply bind_ret in H as (g3 & bp & H3 & H). apply obj_ret in H3. subst g3. destruct bp as [bp|].
        + apply bind_ret in H as (g3 & u3 & H3 & H). cbn in H3. injection H3 as <- _. apply bind_ret in H as (g4 & u4 & H4 & H). apply unit_ret in H4. subst g4. cbn in H. inversion H; subst g1. cbn [push g_hist].
          eexists [_; _; _; _]. reflexivity.
        + cbn in H. inversion H; subst g1. cbn [push g_hist]. eexists [_; _]. reflexivity.
      - apply bind_ret in H as (g3 & u3 & H3 & H). cbn in H. inversion H; subst g3. exact (signal_ret _ _ _ _ _ _ H3). }
    assert (h = h2 ++ (CWaitSignals, AEvent ev) :: h1 ++ [(CProcesses, AProcs l)]) as Eh.
    { apply (app_inv_tail (g_hist g)). rewrite <- Hh, G2, <- !app_assoc. cbn. now rewrite <- app_assoc. }
    pose proof W as W'. rewrite Eh in W'. apply es_app in W' as (wb & W1 & W2). apply es_cons in W1 as (wa & W1 & Aw). apply es_app in W1 as (wd & W0 & W1). apply es_cons in W0 as (wc & W0 & A0). apply es_nil in W0. subst wc.
    apply as_plain in A0; [|exact I]. apply procs_inv in A0 as ([= ->] & ->).
    (* the loop over the only process *)
    assert (exists st0, wa = World st0 Running /\ g_process g2 = O /\ g_last g2 = [] /\
      match o with
      | None => h1 = [(CCont O 0, AUnit); (CClear O, AUnit)] /\ st0 = st
      | Some s => h1 = [(CCont O s, AUnit); (CLog (LSend s O), AUnit); (CClear O, AUnit)] /\ exists k r, st0 = stopped_with st k r /\ delivers G s (s_mem (b_mem st)) (r_regs (b_regs st)) k r
      end) as (st0 & -> & P2 & La2 & Hloop).
    { unfold cont_loop in H1. cbn [giter] in H1. apply bind_ret in H1 as (g3 & u3 & H3 & H1). cbn in H1. injection H1 as -> _.
      apply bind_ret in H3 as (g3 & u4 & H4 & H3). apply unit_ret in H4. subst g3. apply bind_ret in H3 as (g3 & g3' & H4 & H3). cbn in H4. inversion H4; subst g3 g3'. clear H4.
      unfold continueProcess in H3. apply bind_ret in H3 as (g3 & g3' & H4 & H3). cbn in H4. inversion H4; subst g3 g3'. clear H4.
      cbn [push g_last g_process] in H3. rewrite Hl, Hp in H3. destruct o as [s|].
      - cbn [Nat.eqb last_signal dget] in H3. change (0 =? 0) with true in H3. cbn iota in H3. assert (s =? 0 = false) as Es by (apply Z.eqb_neq; congruence). cbv zeta in H3. rewrite Es in H3. cbn [negb] in H3.
        apply bind_ret in H3 as (g3 & u5 & H4 & H3). cbn in H4. injection H4 as <- _. apply bind_ret in H3 as (g4 & u6 & H4 & H3). apply unit_ret in H4. subst g4. unfold gmodify in H3. injection H3 as <- _.
        assert (g_last (push CProcesses (AProcs [O]) g) = [(O, s)]) as Hl' by exact Hl.
        unfold del_last in G1 |- *. cbn [push g_last] in G1 |- *. rewrite Hl in G1 |- *. cbn [last_signal] in G1 |- *. cbn in G1.
        assert (h1 = [(CCont O s, AUnit); (CLog (LSend s O), AUnit); (CClear O, AUnit)]) as -> by (apply (app_inv_tail ((CProcesses, AProcs [O]) :: g_hist g)); rewrite <- G1; reflexivity).
        apply es_cons in W1 as (we & W1 & A2). apply es_cons in W1 as (wf & W1 & A1). apply es_cons in W1 as (wg & W1 & A0). apply es_nil in W1. subst wg.
        apply as_plain, else_inv in A0; [|exact I|exact I]. subst wf. apply as_plain, else_inv in A1; [|exact I|exact I]. subst we.
        apply deliver_inv in A2 as (_ & k & r & -> & Dl); [|congruence]. eexists. split; [reflexivity|]. split; [exact Hp|]. split; [reflexivity|]. split; [reflexivity|]. eauto.
      - change (ask_unit env (CCont O 0) (push (CClear 0) AUnit (push CProcesses (AProcs [O]) g)) = (g2, Ret u3)) in H3. apply unit_ret in H3. subst g2. cbn in G1.
        assert (h1 = [(CCont O 0, AUnit); (CClear O, AUnit)]) as -> by (apply (app_inv_tail ((CProcesses, AProcs [O]) :: g_hist g)); rewrite <- G1; reflexivity).
        apply es_cons in W1 as (we & W1 & A2). apply es_cons in W1 as (wf & W1 & A1). apply es_nil in W1. subst wf.
        apply as_plain, else_inv in A1; [|exact I|exact I]. subst we. apply as_plain, cont_inv in A2; [|reflexivity]. destruct A2 as (_ & ->). exists st. cbn. auto. }
    assert (delivered (h1 ++ [(CProcesses, AProcs [O])]) = pending o /\ reported (h1 ++ [(CProcesses, AProcs [O])]) = []) as [Dh Rh].
    { destruct o as [s|]; destruct Hloop as [-> _]; [|split; reflexivity]. cbn. assert (s =? 0 = false) as -> by (apply Z.eqb_neq; congruence). split; reflexivity. }
    (* what happens once it runs, in both cases *)
    assert (forall st1 o1 n, sdebugged E K exec G st0 None Continue st1 o1 [] n -> sdebugged E K exec G st o Continue st1 o1 (pending o) n) as Hrun.
    { intros st1 o1 n D. destruct o as [s|]; destruct Hloop as (_ & Hst); [|subst st0; exact D]. destruct Hst as (k & r & -> & Dl). eapply TDeliver; eassumption. }
    clear Hloop.
    assert (forall st1 o1 n, w1 = World st1 Stopped -> sdebugged E K exec G st0 None Continue st1 o1 [] n -> g_process g1 = O -> g_last g1 = last_signal o1 -> o1 <> Some 0 ->
      delivered h2 = [] -> reported (h2 ++ [(CWaitSignals, AEvent ev)]) = n -> acts_s g o KCont st h w1 g1) as Hend.
    { intros st1 o1 n -> D P1 L1 N1 Q1 Q2. exists [Continue], st1, o1, (pending o), n. split; [reflexivity|]. split; [constructor|]. split; [exact Hm|]. split.
      - rewrite <- (app_nil_r (pending o)), <- (app_nil_r n). eapply OCons; [apply Hrun; exact D|constructor].
      - repeat (split; [assumption|]). rewrite Eh. change ((CWaitSignals, AEvent ev) :: h1 ++ [(CProcesses, AProcs [O])]) with ([(CWaitSignals, AEvent ev)] ++ h1 ++ [(CProcesses, AProcs [O])]).
        rewrite (app_assoc h2), delivered_app, reported_app, Dh, Rh, Q2. split; [|reflexivity]. rewrite delivered_app, Q1. cbn. destruct ev; now rewrite app_nil_r. }
    apply waits_inv in Aw as [(k & r & -> & Ev & R)|(k & r & s & -> & Ev & R & C)]; injection Ev as ->.
    - cbn [signal Z.eqb SIGTRAP Pos.eqb] in H. apply bind_ret in H as (g3 & g3' & H3 & H). cbn in H3. inversion H3; subst g3 g3'. clear H3. cbn [push g_process] in H. rewrite P2 in H.
      apply bind_ret in H as (g3 & ip & H3 & H). apply int_ret in H3. subst g3. apply bind_ret in H as (g3 & bp & H3 & H). apply obj_ret in H3. subst g3.
      pose proof (DContinue E K exec st0 k r R) as D. unfold hit_breakpoint in D. fold p in D.
      destruct bp as [bp|].
      + apply bind_ret in H as (g3 & u3 & H3 & H). cbn in H3. injection H3 as <- _. apply bind_ret in H as (g4 & u4 & H4 & H). apply unit_ret in H4. subst g4. cbn in H. inversion H; subst g1.
        cbn [push g_hist] in G2. rewrite G1 in G2.
        match type of G2 with ?c1 :: ?c2 :: ?c3 :: ?c4 :: ?t = h2 ++ ?t' => assert (h2 = [c1; c2; c3; c4]) as Eh2 by (apply (app_inv_tail t'); rewrite <- G2; reflexivity) end. rewrite Eh2 in W2.
        apply es_cons in W2 as (w2 & W2 & B4). apply es_cons in W2 as (w3 & W2 & B3). apply es_cons in W2 as (w4 & W2 & B2). apply es_cons in W2 as (w5 & W2 & B1).
        apply es_nil in W2. subst w5. apply as_plain in B1; [|exact I]. apply pointer_inv in B1 as (_ & rg & ro & GP & Er & ->). destruct ro as [v|e]; cbn in Er; [|discriminate]. injection Er as <-.
        apply as_plain in B2; [|exact I]. apply find_inv in B2 as (_ & F & ->). injection F as F. apply as_plain, else_inv in B3; [|exact I|exact I]. subst w2. apply as_plain in B4; [|exact I]. apply remove_inv in B4 as (_ & st2 & r2 & Dd & _ & ->).
        apply (Hend st2 None []); try (rewrite Eh2; reflexivity); try reflexivity; try assumption; try discriminate; try (cbn; assumption).
        apply TPlain; [now right|]. fold p in GP. rewrite GP in D. cbn [fst] in D. rewrite <- F, Dd in D. destruct r2; exact D.
      + cbn in H. inversion H; subst g1. cbn [push g_hist] in G2. rewrite G1 in G2.
        match type of G2 with ?c1 :: ?c2 :: ?t = h2 ++ ?t' => assert (h2 = [c1; c2]) as Eh2 by (apply (app_inv_tail t'); rewrite <- G2; reflexivity) end. rewrite Eh2 in W2.
        apply es_cons in W2 as (w4 & W2 & B2). apply es_cons in W2 as (w5 & W2 & B1).
        apply es_nil in W2. subst w5. apply as_plain in B1; [|exact I]. apply pointer_inv in B1 as (_ & rg & ro & GP & Er & ->). destruct ro as [v|e]; cbn in Er; [|discriminate]. injection Er as <-.
        apply as_plain in B2; [|exact I]. apply find_inv in B2 as (_ & F & ->). injection F as F.
        eapply (Hend _ None []); try (rewrite Eh2; reflexivity); try reflexivity; try assumption; try discriminate; try (cbn; assumption).
        apply TPlain; [now right|]. fold p in GP. rewrite GP in D. cbn [fst] in D. rewrite <- F in D. exact D.
    - unfold signal in H. destruct C as (C1 & C2 & C3). assert (s =? SIGTRAP = false) as Es by now apply Z.eqb_neq. rewrite Es in H.
      apply bind_ret in H as (g3 & u3 & H3 & H). cbn in H. injection H as -> _. unfold processSignal in H3. apply bind_ret in H3 as (g3 & u4 & H4 & H3). apply unit_ret in H4. subst g3.
      unfold switchProcess in H3. unfold gbind at 1, gbind at 1, gget in H3. cbn [push g_process] in H3. rewrite P2 in H3. cbn [Nat.eqb gret] in H3. cbn in H3. rewrite P2, La2 in H3. injection H3 as <- _.
      cbn [push g_hist set_last] in G2. rewrite G1 in G2.
      match type of G2 with ?c1 :: ?c2 :: ?t = h2 ++ ?t' => assert (h2 = [c1; c2]) as Eh2 by (apply (app_inv_tail t'); rewrite <- G2; reflexivity) end. rewrite Eh2 in W2.
      apply es_cons in W2 as (w4 & W2 & B2). apply es_cons in W2 as (w5 & W2 & B1). apply es_nil in W2. subst w5. apply as_plain, else_inv in B1; [|exact I|exact I]. subst w4. apply as_plain, else_inv in B2; [|exact I|exact I]. subst w1.
      eapply (Hend _ (Some s) [s]); try (rewrite Eh2; reflexivity); try reflexivity; try congruence; try (cbn; assumption).
      + apply TContinue; [exact R|]. split; auto.
      + rewrite Eh2. cbn. now rewrite Es.
  Qed.
End Commands.
