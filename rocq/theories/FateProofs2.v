(** * FateProofs2: the last command; the theorem. *)
From Coq Require Import ZArith List Ascii Bool Lia.
From Verif Require Import PyBase Platform CallModel MemModel MemSpec StructModel RegModel RegSpec RegProofs BreakModel BreakSpec BreakProofs SessionModel SessionSpec SessionProofs SessionProofs2 SessionProofs3 SessionProofs4 LinkSpec.
From Verif Require TraceModel.
From Verif Require Import SigModel DbgModel GdbModel GdbProofs2 EffectSpec EffectProofs EffectProofs2 LinkProofs LinkProofs2 LinkProofs3 LiveSpec LiveProofs LiveProofs2 LiveProofs3 LiveProofs4 LiveProofs5 FateSpec FateProofs.
Import ListNotations.
Open Scope Z_scope.

Local Notation mem st := (s_mem (b_mem st)).
Local Notation regs st := (r_regs (b_regs st)).

Lemma lawful_waits k h a : plain_command k -> lawful O k h -> In (CWaitSignals, a) h -> k = KCont.
Proof.
  intros Hk L Hi. induction h as [|[c' a'] h IH]; [destruct Hi|]. destruct L as [M L]. destruct Hi as [[= -> ->]|Hi]; [|now apply IH].
  inversion M; subst; try (match goal with H : looks _ _ |- _ => contradiction H end). match goal with H : is_cont ?k |- _ => destruct k; try contradiction; try reflexivity; try (cbn in Hk; discriminate Hk) end.
Qed.

Section Commands.
  Context (E : penv) (K : rkernel) (exec : program) (G : signals) (F : fates).
  Context (ns : SigModel.namespace) (dis : bool) (eval : text -> res PyEval.pyval) (env : history -> gcall -> ans).
  Let p := e_p E.
  Local Notation reads g := (reads_at E eval env g).
  Local Notation explained_f := (explained_f E K exec G F).
  Local Notation perishes := (perishes E exec G F).
  Local Notation runs k := (GdbModel.run p ns dis eval env k).
  (** The command asked for one action, which was the last one. *)
  Definition fatal (g : gstate) (o : option Z) (k : GdbModel.command) (st : bstate) (h : history) (ev : event) : Prop :=
    exists c st0 e, ev = exit_event e /\ (forall l', means (reads g) k h l' -> l' = [c]) /\ seen st st0 /\ perishes st0 o c e (delivered h) /\ reported h = [].

  Lemma handled id s c g0 g1 h h' h0 w : handle env (XEvent (ProcessExit id s c)) g0 = (g1, Ret tt) -> g_hist g1 = h ++ h0 -> g_hist g0 = h' ++ h0 -> explained_f w h Gone ->
    h = [(CProcesses, AProcs []); (CLog (LEvent (ProcessExit id s c)), AUnit)] ++ h' /\ explained_f w h' Gone.
  Proof.
    intros H Hh G0 W. cbn [handle] in H.
    apply bind_ret in H as (g2 & u & H2 & H). cbn in H2. injection H2 as <- _. unfold nextProcess in H. apply bind_ret in H as (g3 & l & H3 & H). apply procs_ret in H3. subst g3.
    assert (exists tl, light tl /\ g_hist g1 = tl ++ (CProcesses, AProcs l) :: (CLog (LEvent (ProcessExit id s c)), AUnit) :: g_hist g0) as (tl & L & Ht).
    { destruct l as [|x l]; [cbn in H; injection H as <-; exists []; split; [constructor|reflexivity]|]. unfold switchProcess, gbind, gget in H. cbn in H.
      destruct (Nat.eqb _ _); cbn in H; injection H as <-; [exists []; split; [constructor|reflexivity]|]. eexists [_]. split; [|reflexivity]. repeat constructor. }
    rewrite Hh, G0 in Ht. assert (h = tl ++ (CProcesses, AProcs l) :: (CLog (LEvent (ProcessExit id s c)), AUnit) :: h') as -> by (apply (app_inv_tail h0); rewrite Ht, <- app_assoc; reflexivity).
    apply ef_app in W as (w1 & W1 & W2). apply light_gone in W2; [|exact L]. subst w1. apply ef_cons in W1 as (w2 & W1 & A). inversion A; subst; try contradiction;
      try (match goal with H : waits _ |- _ => destruct H as [H|H]; discriminate H end).
    apply ef_cons in W1 as (w3 & W1 & B). assert (w3 = Gone) as -> by (inversion B; subst; try reflexivity; match goal with H : waits _ |- _ => destruct H as [H|H]; discriminate H end). split; [|exact W1].
    cbn in H. injection H as <-. cbn in Hh. rewrite G0 in Hh. apply (app_inv_tail h0). now rewrite <- Hh.
  Qed.
  Lemma told_unit X c : told X (ask_unit env c).
  Proof. unfold ask_unit. apply told_bind; [apply told_ask|]. intros []; first [apply told_ret|apply told_raise; intros; discriminate]. Qed.
  Lemma told_loop X s l : told X (cont_loop env s l).
  Proof.
    unfold cont_loop. apply told_iter. intros id. apply told_bind; [apply told_unit|]. intros. apply told_bind; [apply told_get|]. intros. apply told_continue.
  Qed.
  (** *** cont *)
  Lemma loop_event g g0 ev : cont_loop env 0 [O] g = (g0, Raise (XEvent ev)) -> exists c g2 h2, g0 = push c (ARaise (XEvent ev)) g2 /\ g_hist g2 = h2 ++ g_hist g /\ c <> CWaitSignals.
  Proof.
    intros H. unfold cont_loop in H. cbn [giter] in H. apply bind_event in H as [H|(g1 & u & _ & H)]; [|discriminate H].
    apply bind_event in H as [H|(g1 & u & H1 & H)]; [apply unit_event in H; exists (CClear O), g, []; split; [exact H|]; split; [reflexivity|discriminate]|]. apply unit_ret in H1. subst g1.
    apply bind_event in H as [H|(g1 & g1' & H1 & H)]; [discriminate H|]. cbn in H1. inversion H1; subst g1 g1'. clear H1.
    unfold continueProcess in H. apply bind_event in H as [H|(g1 & g1' & H1 & H)]; [discriminate H|]. cbn in H1. inversion H1; subst g1 g1'. clear H1.
    cbv zeta in H. match type of H with context [negb (?x =? 0)] => generalize dependent x end. intros x H. destruct (negb (x =? 0)).
    - apply bind_event in H as [H|(g1 & u1 & H1 & H)]; [discriminate H|]. cbn in H1. injection H1 as <- _. apply bind_event in H as [H|(g4 & u4 & _ & H)]; [|discriminate H].
      apply unit_event in H. subst g0. eexists _, _, [_; _]. split; [reflexivity|]. split; [reflexivity|discriminate].
    - apply unit_event in H. subst g0. eexists _, _, [_]. split; [reflexivity|]. split; [reflexivity|discriminate].
  Qed.
  Lemma cont_fatal g g0 o ev h st : g_process g = O -> g_last g = last_signal o -> o <> Some 0 -> gdb_cont p env 0 g = (g0, Raise (XEvent ev)) -> g_hist g0 = h ++ g_hist g ->
    (forall c, In (c, ARaise (XEvent ev)) h -> c = CWaitSignals) -> explained_f (Alive (World st Stopped)) h Gone -> fatal g o KCont st h ev.
  Proof.
    intros Hp Hl Ho H Hh No W. assert (forall l', means (reads g) KCont h l' -> l' = [Continue]) as Hm.
    { intros l' M. inversion M; subst; try reflexivity; try discriminate. match goal with H : _ \/ _ \/ _ |- _ => destruct H as [H|[H|H]]; discriminate H end. }
    unfold gdb_cont in H.
    assert (forall c g2 h2, g0 = push c (ARaise (XEvent ev)) g2 -> g_hist g2 = h2 ++ g_hist g -> c = CWaitSignals) as No1.
    { intros c g2 h2 -> G2. cbn in Hh. rewrite G2 in Hh. change (?a :: h2 ++ g_hist g) with ((a :: h2) ++ g_hist g) in Hh. apply app_inv_tail in Hh. subst h. apply No. now left. }
    assert (forall l hr, g_hist g0 = hr ++ (CProcesses, AProcs l) :: g_hist g -> h = hr ++ [(CProcesses, AProcs l)] /\ l = [O] /\ explained_f (Alive (World st Stopped)) hr Gone) as Hsplit.
    { intros l hr Gr. assert (h = hr ++ [(CProcesses, AProcs l)]) as -> by (apply (app_inv_tail (g_hist g)); rewrite <- Hh, Gr, <- app_assoc; reflexivity). split; [reflexivity|].
      apply ef_app in W as (w1 & W0 & W). apply ef_cons in W0 as (w0 & W0 & A0). apply ef_nil in W0. subst w0. apply af_plain in A0 as (w2 & -> & A0); [|exact I]. apply procs_inv in A0 as ([= ->] & ->). auto. }
    apply bind_event in H as [H|(g2 & l & H1 & H)].
    { exfalso. assert (g0 = push CProcesses (ARaise (XEvent ev)) g) as Eg by (apply bind_event in H as [H|(g1 & a & _ & H)]; [now apply ask_event_raise in H|destruct a; discriminate H]).
      discriminate (No1 _ _ [] Eg eq_refl). }
    apply procs_ret in H1. subst g2. apply bind_event in H as [H|(g2 & u & H1 & H)].
    { exfalso. destruct (told_loop (fun _ => False) 0 l (push CProcesses (AProcs l) g)) as (hr & Gr & _). rewrite H in Gr. cbn [fst push g_hist] in Gr. destruct (Hsplit l hr Gr) as (_ & -> & _).
      apply loop_event in H as (c & g2 & h2 & Eg & G2 & N). apply N, (No1 c g2 (h2 ++ [(CProcesses, AProcs [O])]) Eg). rewrite G2, <- app_assoc. reflexivity. }
    pose proof (loop_ret _ _ _ _ _ _ H1) as (h1 & G1). cbn [push g_hist] in G1.
    assert (forall l' g3, g_hist g3 = l' ++ g_hist g2 -> exists h2, g_hist g3 = h2 ++ g_hist g) as Hmore.
    { intros l' g3 G3. exists (l' ++ h1 ++ [(CProcesses, AProcs l)]). rewrite G3, G1, <- !app_assoc. reflexivity. }
    apply bind_event in H as [H|(g3 & ev' & H3 & H)].
    - (* the process ended *)
      apply event_event in H. subst g0. cbn [push g_hist] in Hsplit. destruct (Hsplit l ((CWaitSignals, ARaise (XEvent ev)) :: h1)) as (Eh & -> & W1); [now rewrite G1|].
      apply ef_cons in W1 as (w1 & W1 & A). clear Hsplit Hmore No1.
      unfold cont_loop in H1. cbn [giter] in H1. apply bind_ret in H1 as (g3 & u3 & H3 & H1). cbn in H1. injection H1 as -> _.
      apply bind_ret in H3 as (g3 & u4 & H4 & H3). apply unit_ret in H4. subst g3. apply bind_ret in H3 as (g3 & g3' & H4 & H3). cbn in H4. inversion H4; subst g3 g3'. clear H4.
      unfold continueProcess in H3. apply bind_ret in H3 as (g3 & g3' & H4 & H3). cbn in H4. inversion H4; subst g3 g3'. clear H4.
      cbn [push g_last g_process] in H3. rewrite Hl, Hp in H3. destruct o as [s|].
      + cbn [Nat.eqb last_signal dget] in H3. change (0 =? 0) with true in H3. cbn iota in H3. assert (s =? 0 = false) as Es by (apply Z.eqb_neq; congruence). cbv zeta in H3. rewrite Es in H3. cbn [negb] in H3.
        apply bind_ret in H3 as (g3 & u5 & H4 & H3). cbn in H4. injection H4 as <- _. apply bind_ret in H3 as (g4 & u6 & H4 & H3). apply unit_ret in H4. subst g4. unfold gmodify in H3. injection H3 as <- _.
        unfold del_last in G1. cbn [push g_last] in G1. rewrite Hl in G1. cbn in G1.
        assert (h1 = [(CCont O s, AUnit); (CLog (LSend s O), AUnit); (CClear O, AUnit)]) as -> by (apply (app_inv_tail ((CProcesses, AProcs [O]) :: g_hist g)); rewrite <- G1; reflexivity).
        apply ef_cons in W1 as (we & W1 & A2). apply (light_ef E K exec G F) in W1 as (st0 & -> & S0); [|repeat constructor].
        assert (delivered h = [s] /\ reported h = []) as [Dh Rh] by (rewrite Eh; cbn; rewrite Es; split; reflexivity).
        destruct (wait_end E K exec G F _ _ _ _ (or_introl eq_refl) A) as [(w & _ & w' & Hw)|(e & -> & _ & Hc)]; [discriminate Hw|].
        exists Continue, st0, e. split; [reflexivity|]. split; [exact Hm|]. split; [exact S0|]. split; [|exact Rh]. rewrite Dh.
        inversion A2 as [w0 c0 a0 w' A3|st1 s1 _ Hk| | | | | |]; subst.
        * apply deliver_inv in A3 as (_ & k & r & -> & D); [|congruence].
          destruct Hc as [(st1 & k1 & r1 & [= <-] & R & X)|[(st1 & Hx & _)|(s1 & Hx & _)]]; [|discriminate Hx|discriminate Hx]. eapply RDeliver; eassumption.
        * destruct Hc as [(st1 & k1 & r1 & Hx & _)|[(st1 & Hx & _)|(s1 & [= <-] & ->)]]; [discriminate Hx|discriminate Hx|]. now apply RKill.
      + change (ask_unit env (CCont O 0) (push (CClear 0) AUnit (push CProcesses (AProcs [O]) g)) = (g2, Ret u3)) in H3. apply unit_ret in H3. subst g2. cbn in G1.
        assert (h1 = [(CCont O 0, AUnit); (CClear O, AUnit)]) as -> by (apply (app_inv_tail ((CProcesses, AProcs [O]) :: g_hist g)); rewrite <- G1; reflexivity).
        apply ef_cons in W1 as (we & W1 & A2). apply (light_ef E K exec G F) in W1 as (st0 & -> & S0); [|repeat constructor]. apply af_plain in A2 as (w2 & -> & A2); [|reflexivity]. apply cont_inv in A2 as (_ & ->).
        destruct (wait_end E K exec G F _ _ _ _ (or_introl eq_refl) A) as [(w & _ & w' & Hw)|(e & -> & _ & Hc)]; [discriminate Hw|].
        exists Continue, st0, e. split; [reflexivity|]. split; [exact Hm|]. split; [exact S0|]. rewrite Eh. split; [|reflexivity].
        destruct Hc as [(st1 & k1 & r1 & [= <-] & R & X)|[(st1 & Hx & _)|(s1 & Hx & _)]]; [|discriminate Hx|discriminate Hx]. cbn. eapply RContinue; eassumption.
    - (* no other call raises the event *)
      exfalso. apply event_ret in H3. subst g3.
      assert (forall c g3 l', g0 = push c (ARaise (XEvent ev)) g3 -> g_hist g3 = l' ++ g_hist g2 -> c = CWaitSignals) as No2.
      { intros c g3 l' Eg G3. destruct (Hmore l' g3 G3) as (h2 & G4). exact (No1 c g3 h2 Eg G4). }
      destruct ev' as [?|?|?|s id]; try discriminate H. destruct (s =? SIGTRAP).
      + apply bind_event in H as [H|(g3 & g3' & H3 & H)]; [discriminate H|]. cbn in H3. inversion H3; subst g3 g3'. clear H3.
        apply bind_event in H as [H|(g3 & ip & H3 & H)]; [apply int_event in H; discriminate (No2 _ _ [_] H eq_refl)|]. apply int_ret in H3. subst g3.
        apply bind_event in H as [H|(g3 & bp & H3 & H)].
        { assert (g0 = push (CFindBreakpoint (g_process (push CWaitSignals (AEvent (ProcessSignal s id)) g2)) (if is_powerpc (p_cpu p) then ip else ip - 1)) (ARaise (XEvent ev))
            (push (CGetIP (g_process (push CWaitSignals (AEvent (ProcessSignal s id)) g2))) (AInt ip) (push CWaitSignals (AEvent (ProcessSignal s id)) g2))) as Eg
            by (apply bind_event in H as [H|(g1 & a & _ & H)]; [now apply ask_event_raise in H|destruct a; discriminate H]).
          discriminate (No2 _ _ [_; _] Eg eq_refl). }
        apply obj_ret in H3. subst g3. destruct bp as [bp|]; [|discriminate H].
        apply bind_event in H as [H|(g3 & u3 & H3 & H)]; [discriminate H|]. cbn in H3. injection H3 as <- _.
        apply bind_event in H as [H|(g3 & u4 & _ & H)]; [|discriminate H]. apply unit_event in H. discriminate (No2 _ _ [_; _; _; _] H eq_refl).
      + apply bind_event in H as [H|(g3 & u3 & _ & H)]; [|discriminate H]. unfold processSignal in H.
        apply bind_event in H as [H|(g3 & u4 & H3 & H)]; [apply unit_event in H; discriminate (No2 _ _ [_] H eq_refl)|].
        unfold switchProcess, gbind, gget in H. destruct (Nat.eqb (g_process g3) id); discriminate H.
  Qed.

  (** *** until, step and stepi *)
  Section Steps.
    Context (g g0 : gstate) (o : option Z) (ev : event) (h : history) (st : bstate).
    Hypothesis Hp : g_process g = O.
    Hypothesis Hh : g_hist g0 = h ++ g_hist g.
    Hypothesis No : forall c, In (c, ARaise (XEvent ev)) h -> c = CWait O SIGTRAP.
    Hypothesis W : explained_f (Alive (World st Stopped)) h Gone.
    Lemma no_strange g2 h3 : g_hist g2 = h3 ++ g_hist g -> strange g2 g0 ev -> False.
    Proof.
      intros G2 (c & h0 & G0 & Hi & Hc). assert (h = h0 ++ h3) as Eh by (apply (app_inv_tail (g_hist g)); rewrite <- Hh, G0, G2, <- !app_assoc; reflexivity).
      apply Hc, No. rewrite Eh. apply in_app_iff. now left.
    Qed.
    Lemma over_fatal a size bp h1 : light h1 -> forall st0, explained_f (Alive (World st0 Stopped)) (over a size bp ev h1) Gone ->
      exists st1 e, ev = exit_event e /\ seen st0 st1 /\ perishes st1 o (Step a size) e [].
    Proof.
      intros L st0 V. unfold over in V. apply ef_cons in V as (w2 & V & A4). apply ef_cons in V as (w3 & V & A3). apply ef_cons in V as (w4 & V & A2). apply ef_cons in V as (w5 & V & A1).
      apply (light_ef E K exec G F _ _ _ _ L) in V as (st1 & -> & S0). apply af_plain in A1 as (w6 & -> & A1); [|exact I]. apply create_inv in A1 as (_ & st2 & r & C & Er & ->). destruct r as [id|e]; cbn in Er; [|discriminate].
      apply af_plain in A2 as (w7 & -> & A2); [|reflexivity]. apply cont_inv in A2 as (_ & ->).
      destruct (wait_end E K exec G F _ _ _ _ (or_intror eq_refl) A3) as [(w & _ & w' & ->)|(e & -> & _ & Hc)]; [inversion A4|].
      destruct Hc as [(st3 & k1 & r1 & [= <-] & R & X)|[(st3 & Hx & _)|(s1 & Hx & _)]]; [|discriminate Hx|discriminate Hx].
      exists st1, e. split; [reflexivity|]. split; [exact S0|]. eapply RStep; eassumption.
    Qed.
    Lemma over_none a size bp h1 : light h1 -> (exists e, ev = exit_event e) -> delivered (over a size bp ev h1) = [] /\ reported (over a size bp ev h1) = [].
    Proof.
      intros L (e & Ee). change (over a size bp ev h1) with ([(CDesinstall bp false, AUnit); (CWait O SIGTRAP, ARaise (XEvent ev)); (CCont O 0, AUnit); (CCreateBreakpoint O a size, AObj (Some bp))] ++ h1).
      rewrite delivered_app, reported_app. destruct (tranquil_signals h1 (light_tranquil h1 L)) as [-> ->]. subst ev. destruct e; split; reflexivity.
    Qed.
    Lemma until_fatal t : until p dis eval env t g = (g0, Raise (XEvent ev)) -> fatal g o (KUntil t) st h ev.
    Proof.
      intros H. unfold until, or_message in H. apply bind_event in H as [H|(g2 & ra & H1 & H2)].
      { exfalso. unfold gtry, gbind in H. rewrite parse_run in H. destruct (GdbSpec.parse _ _ _ _ _) as [a|e]; [discriminate H|]. destruct e; discriminate H. }
      assert (exists a, g2 = g /\ reads g t a /\ ra = Ok a) as (a & -> & Ra & ->).
      { unfold gtry, gbind in H1. unfold reads_at. fold p. destruct (g_parseInteger p eval env t g) as [g3 [a|x]] eqn:Ep.
        - pose proof (parse_state E eval env _ _ _ _ Ep). subst g3. cbn in H1. injection H1 as <- <-. eauto.
        - destruct x as [[]|]; cbn in H1; try discriminate H1. injection H1 as <- <-. discriminate H2. }
      clear H1. unfold step in H2. cbn [negb] in H2. apply bind_event in H2 as [H|(g3 & m & H3 & H)].
      - apply bind_event in H as [H|(g3 & u & H3 & H)]; [discriminate H|]. cbn in H3. injection H3 as <- _. apply over_event in H as [(h1 & size & bp & L1 & P1 & La1 & G1)|Hst]; [|exfalso; exact (no_strange g [] eq_refl Hst)|exact Hp].
        assert (h = over a size bp ev h1) as Eh by (apply (app_inv_tail (g_hist g)); rewrite <- Hh, G1; reflexivity). rewrite Eh in W. destruct (over_fatal a size bp h1 L1 st W) as (st1 & e & Ee & S & P).
        destruct (over_none a size bp h1 L1) as [D R]; [eauto|].
        exists (Step a size), st1, e. split; [exact Ee|]. rewrite Eh, D, R. split; [|auto].
        intros l' M. inversion M; subst; try discriminate.
        + match goal with H : In _ _ |- _ => destruct (over_in a size bp (exit_event e) h1 [] _ _ _ L1 (Forall_nil _) H) as [-> ->] end. reflexivity.
        + exfalso. match goal with H : forall a, ~ reads_at _ _ _ _ _ _, O : _ \/ _ \/ _ |- _ => destruct O as [O|[O|O]]; try discriminate O; injection O as ->; exact (H _ Ra) end.
      - exfalso. apply bind_ret in H3 as (g4 & u & H4 & H3). cbn in H4. injection H4 as <- _. apply over_ret in H3 as (h1 & size & bp & ev' & -> & L1 & P2 & _ & G2); [|exact Hp].
        apply bind_event in H as [H|(g4 & u' & _ & H)]; [|discriminate H]. apply display_event in H.
        apply (no_strange g3 ((CDesinstall bp true, AUnit) :: (CWait O SIGTRAP, AEvent ev') :: (CCont O 0, AUnit) :: (CCreateBreakpoint O a size, AObj (Some bp)) :: h1)); [|exact H]. rewrite G2. reflexivity.
    Qed.
    Lemma step_fatal : step p dis env false None g = (g0, Raise (XEvent ev)) -> fatal g o KStep st h ev.
    Proof.
      intros H. unfold step in H. apply bind_event in H as [H|(g2 & u & H1 & H)]; [exfalso; exact (no_strange g [] eq_refl (display_event _ _ _ _ _ _ H))|].
      apply displayInstr_ret in H1 as (h1 & G1 & L1 & P1 & La1).
      cbn [negb] in H. apply bind_event in H as [H|(g3 & g3' & H3 & H)]; [discriminate H|]. cbn in H3. inversion H3; subst g3 g3'. clear H3. rewrite P1, Hp in H.
      apply bind_event in H as [H|(g3 & ip & H3 & H)]; [exfalso; apply int_event in H; apply (no_strange g2 h1 G1); rewrite H; apply strange_here; discriminate|]. apply int_ret in H3. subst g3.
      assert (g_hist (push (CGetIP 0) (AInt ip) g2) = ((CGetIP O, AInt ip) :: h1) ++ g_hist g) as G3 by (cbn; now rewrite G1).
      apply bind_event in H as [H|(g4 & size & H4 & H)]; [exfalso; exact (no_strange _ _ G3 (size_event _ _ _ _ _ _ H))|]. apply instrSize_ret in H4 as (h2 & (G4 & L2 & P4 & La4) & N).
      assert (g_process g4 = O) as P5 by (rewrite P4; cbn; congruence).
      assert (g_hist g4 = (h2 ++ (CGetIP O, AInt ip) :: h1) ++ g_hist g) as G5 by (rewrite G4, G3, app_assoc; reflexivity).
      assert (exists n, size = Some n /\ gbind (step_break dis env (ip + n)) (fun bp => step_wait env (Some bp)) g4 = (g0, Raise (XEvent ev))) as (n & Hz & H5).
      { destruct size as [n|]; [destruct (n =? 0)|]; cbn in H; [discriminate H|eauto|discriminate H]. }
      apply over_event in H5 as [(h3 & size3 & bp & L3 & P3 & La3 & G6)|Hst]; [|exfalso; exact (no_strange _ _ G5 Hst)|exact P5].
      set (pre := h2 ++ (CGetIP O, AInt ip) :: h1) in *.
      assert (h = over (ip + n) size3 bp ev h3 ++ pre) as Eh by (apply (app_inv_tail (g_hist g)); rewrite <- Hh, G6, G5; unfold over; cbn [app]; rewrite !app_assoc; reflexivity).
      assert (Forall tranquil pre) as Tp by (subst pre; apply Forall_app; split; [now apply light_tranquil|constructor; [exact I|now apply light_tranquil]]).
      assert (forall a sz r, In (CCreateBreakpoint O a sz, r) (over (ip + n) size3 bp ev h3 ++ pre) -> a = ip + n /\ sz = size3) as Hone.
      { intros a sz r Hi. apply in_app_iff in Hi as [Hi|Hi]; [exact (over_in _ _ _ _ _ [] _ _ _ L3 (Forall_nil _) Hi)|exfalso]. subst pre. apply in_app_iff in Hi as [Hi|[Hi|Hi]]; [|discriminate Hi|].
        - apply (light_no _ _ _ L2 Hi). cbn. auto.
        - apply (light_no _ _ _ L1 Hi). cbn. auto. }
      rewrite Eh in W. apply ef_app in W as (w0 & W0 & W1). apply ef_plain in W0 as (w1 & -> & W0); [|exact Tp]. apply looks_seen in W0 as (stp & -> & Sp).
      2:{ subst pre. apply Forall_app. split; [|constructor; [cbn; auto|]]; (eapply Forall_impl; [|eassumption]; intros x [?|?]; auto). }
      destruct (over_fatal (ip + n) size3 bp h3 L3 stp W1) as (st1 & e & Ee & S & P). destruct (over_none (ip + n) size3 bp h3 L3) as [D R]; [eauto|].
      exists (Step (ip + n) size3), st1, e. split; [exact Ee|]. split; [|split; [exact (seen_trans _ _ _ Sp S)|]].
      - intros l' M. rewrite Eh in M. inversion M as [| | |ip' n' size' r' h'' Hi1 Hi2 Hi3| | | |h'' Hno|k' h'' Hk]; subst; try discriminate; try (match goal with H : _ \/ _ \/ _ |- _ => destruct H as [H|[H|H]]; discriminate H end).
        + destruct (Hone _ _ _ Hi3) as [-> ->]. reflexivity.
        + rewrite Forall_forall in Hno. exfalso. apply (Hno (CCreateBreakpoint O (ip + n) size3, AObj (Some bp))).
          * apply in_app_iff. left. cbn. auto 8.
          * exists (ip + n), size3. reflexivity.
      - rewrite Eh, delivered_app, reported_app, D, R. destruct (tranquil_signals pre Tp) as [-> ->]. split; [exact P|reflexivity].
    Qed.
    Lemma stepi_fatal : step p dis env true None g = (g0, Raise (XEvent ev)) -> fatal g o KStepi st h ev.
    Proof.
      intros H. unfold step in H. apply bind_event in H as [H|(g2 & u & H1 & H)]; [exfalso; exact (no_strange g [] eq_refl (display_event _ _ _ _ _ _ H))|].
      apply displayInstr_ret in H1 as (h1 & G1 & L1 & P1 & La1).
      cbn [negb] in H. apply bind_event in H as [H|(g3 & g3' & H3 & H)]; [discriminate H|]. cbn in H3. inversion H3; subst g3 g3'. clear H3. rewrite P1, Hp in H.
      apply bind_event in H as [H|(g3 & u2 & H3 & H)]; [exfalso; apply unit_event in H; apply (no_strange g2 h1 G1); rewrite H; apply strange_here; discriminate|]. apply unit_ret in H3. subst g3.
      apply bind_event in H as [H|(g3 & g3' & H3 & H)]; [discriminate H|]. cbn in H3. inversion H3; subst g3 g3'. clear H3. cbn [g_process push] in H. rewrite P1, Hp in H. unfold gtry in H.
      match type of H with (match ?m ?g with _ => _ end) = _ => destruct (m g) as [g3 [o3|x]] eqn:Em end; [discriminate H|]. cbn in H. injection H as -> ->.
      apply bind_event in Em as [Em|(g3 & ev' & _ & Em)]; [|discriminate Em]. apply event_event in Em.
      assert (h = [(CWait O SIGTRAP, ARaise (XEvent ev)); (CStep O, AUnit)] ++ h1) as Eh by (apply (app_inv_tail (g_hist g)); rewrite <- Hh, Em; cbn; rewrite G1; reflexivity).
      rewrite Eh in W. cbn [app] in W. apply ef_cons in W as (w3 & V & A2). apply ef_cons in V as (w2 & V & A1). apply (light_ef E K exec G F _ _ _ _ L1) in V as (st0 & -> & S0).
      apply af_plain in A1 as (w4 & -> & A1); [|exact I]. apply LinkProofs.step_inv in A1 as (_ & ->).
      destruct (wait_end E K exec G F _ _ _ _ (or_intror eq_refl) A2) as [(w & _ & w' & Hw)|(e & Ee & _ & Hc)]; [discriminate Hw|].
      destruct Hc as [(st3 & k1 & r1 & Hx & _)|[(st3 & [= <-] & X)|(s1 & Hx & _)]]; [discriminate Hx| |discriminate Hx].
      exists Stepi, st0, e. split; [exact Ee|]. split; [|split; [exact S0|]].
      - intros l' M. inversion M; subst; try reflexivity; try discriminate. match goal with H : _ \/ _ \/ _ |- _ => destruct H as [H|[H|H]]; discriminate H end.
      - rewrite Eh, delivered_app, reported_app. destruct (light_signals h1 L1) as [-> ->]. subst ev. split; [apply RStepi; exact X|destruct e; reflexivity].
    Qed.
  End Steps.

  (** *** All commands *)
  Theorem ends_fatal k g g0 o ev h st : g_process g = O -> g_last g = last_signal o -> o <> Some 0 -> plain_command k -> runs k g = (g0, Raise (XEvent ev)) -> g_hist g0 = h ++ g_hist g ->
    explained_f (Alive (World st Stopped)) h Gone -> fatal g o k st h ev.
  Proof.
    intros Hp Hl Ho Hk H Hh W. destruct (run_told _ _ _ _ _ _ _ _ _ H) as (h0 & c & G0 & Hi). rewrite Hh in G0. apply app_inv_tail in G0. subst h0.
    destruct (run_lawful (e_p E) ns dis eval env k g) as (h2 & G2 & L). fold p in G2, L. rewrite H in G2. cbn [fst] in G2. rewrite Hh in G2. apply app_inv_tail in G2. subst h2. rewrite Hp in L.
    assert (k = KCont \/ is_step k \/ k = KStepi) as Hc.
    { destruct (ef_event E K exec G F _ _ _ _ _ W Hi) as [->| ->]; [left; exact (lawful_waits k h _ Hk L Hi)|right; exact (lawful_wait k h _ _ Hk L Hi eq_refl)]. }
    assert (k = KCont -> forall c, In (c, ARaise (XEvent ev)) h -> c = CWaitSignals) as N1.
    { intros -> c' Hi'. destruct (ef_event E K exec G F _ _ _ _ _ W Hi') as [->| ->]; [reflexivity|]. destruct (lawful_wait _ h _ _ Hk L Hi' eq_refl) as [[]|Hx]; discriminate Hx. }
    assert (k <> KCont -> forall c, In (c, ARaise (XEvent ev)) h -> c = CWait O SIGTRAP) as N2.
    { intros N c' Hi'. destruct (ef_event E K exec G F _ _ _ _ _ W Hi') as [->| ->]; [|reflexivity]. contradiction (N (lawful_waits k h _ Hk L Hi')). }
    destruct Hc as [->|[S| ->]]; [exact (cont_fatal g g0 o ev h st Hp Hl Ho H Hh (N1 eq_refl) W)| |exact (stepi_fatal g g0 o ev h st Hp Hh (N2 ltac:(discriminate)) W H)].
    destruct k; try contradiction S; [exact (step_fatal g g0 o ev h st Hp Hh (N2 ltac:(discriminate)) W H)|exact (until_fatal g g0 o ev h st Hp Hh (N2 ltac:(discriminate)) W t H)].
  Qed.
End Commands.
