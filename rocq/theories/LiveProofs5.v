(** * LiveProofs5: interrupted steps at the process; the theorems. *)
From Coq Require Import ZArith List Ascii Bool Lia.
From Verif Require Import PyBase Platform CallModel MemModel MemSpec StructModel RegModel RegSpec RegProofs BreakModel BreakSpec BreakProofs SessionModel SessionSpec SessionProofs2 SessionProofs4 LinkSpec.
From Verif Require TraceModel.
From Verif Require Import SigModel DbgModel GdbModel GdbProofs2 EffectSpec EffectProofs EffectProofs2 LinkProofs LinkProofs2 LinkProofs3 LiveSpec LiveProofs LiveProofs2 LiveProofs3 LiveProofs4.
Import ListNotations.
Open Scope Z_scope.

Section Commands.
  Context (E : penv) (K : rkernel) (exec : program) (G : signals).
  Context (ns : SigModel.namespace) (dis : bool) (eval : text -> res PyEval.pyval) (env : history -> gcall -> ans).
  Let p := e_p E.
  Local Notation reads g := (reads_at E eval env g).
  Local Notation explained_s := (explained_s E K exec G).
  Local Notation acts_s := (acts_s E K exec G eval env).
  Local Notation runs k := (GdbModel.run p ns dis eval env k).

  Lemma handle_light s g0 g1 u o : g_process g0 = O -> g_last g0 = last_signal o -> processSignal env s O g0 = (g1, Ret u) ->
    g_process g1 = O /\ g_last g1 = last_signal (Some s) /\ g_hist g1 = [(CLog (LInterrupted O s), AUnit); (CDisplay (ProcessSignal s O), AUnit)] ++ g_hist g0.
  Proof.
    intros Hp Hl H. unfold processSignal in H. apply bind_ret in H as (g2 & u2 & H2 & H). apply unit_ret in H2. subst g2.
    unfold switchProcess in H. unfold gbind at 1, gbind at 1, gget in H. cbn [push g_process] in H. rewrite Hp in H. cbn [Nat.eqb gret] in H. cbn in H. rewrite Hp, Hl in H. injection H as <- _.
    split; [exact Hp|]. split; [destruct o; reflexivity|reflexivity].
  Qed.
  Definition over (a : Z) (size : option Z) (bp : nat) (ev : event) (h1 : history) : history :=
    (CDesinstall bp false, AUnit) :: (CWait O SIGTRAP, ARaise (XEvent ev)) :: (CCont O 0, AUnit) :: (CCreateBreakpoint O a size, AObj (Some bp)) :: h1.
  Lemma over_interrupted a size bp ev h1 st m w1 : light h1 -> explained_s (World st m) (over a size bp ev h1) w1 ->
    exists st0 st1 s, w1 = World st1 Stopped /\ ev = signal s /\ s <> 0 /\ seen st st0 /\ forall o, sdebugged E K exec G st0 o (Step a size) st1 (Some s) [] [s].
  Proof.
    intros L W. unfold over in W. apply es_cons in W as (w2 & W & A4). apply es_cons in W as (w3 & W & A3). apply es_cons in W as (w4 & W & A2). apply es_cons in W as (w5 & W & A1).
    apply (light_es E K exec G _ _ _ _ L) in W as (st0 & -> & S0). apply as_plain in A1; [|exact I]. apply create_inv in A1 as (-> & st1 & r & C & Er & ->). destruct r as [id|e]; cbn in Er; [|discriminate]. injection Er as <-.
    apply as_plain, cont_inv in A2; [|reflexivity]. destruct A2 as (_ & ->). apply step_event_inv in A3 as (k & r & s & -> & -> & Rn & Cs). apply as_plain in A4; [|exact I]. apply remove_inv in A4 as (_ & st2 & r2 & D & Er & ->).
    destruct r2 as [u|e]; [|discriminate Er]. exists st0, st2, s. split; [reflexivity|]. split; [reflexivity|]. split; [apply Cs|]. split; [exact S0|]. intros o. eapply TStep; eassumption.
  Qed.
  Lemma over_in a size bp ev h1 h2 a' size' r' : light h1 -> light h2 -> In (CCreateBreakpoint O a' size', r') (h2 ++ over a size bp ev h1) -> a' = a /\ size' = size.
  Proof.
    intros L1 L2 H. apply in_app_iff in H as [H|[H|[H|[H|[H|H]]]]]; try discriminate H.
    - exfalso. apply (light_no _ _ _ L2 H). cbn. auto.
    - inversion H; auto.
    - exfalso. apply (light_no _ _ _ L1 H). cbn. auto.
  Qed.
  Lemma over_signals a size bp s h1 : light h1 -> delivered (over a size bp (signal s) h1) = [] /\ reported (over a size bp (signal s) h1) = [s].
  Proof.
    intros L. change (over a size bp (signal s) h1) with ([(CDesinstall bp false, AUnit); (CWait O SIGTRAP, ARaise (XEvent (signal s))); (CCont O 0, AUnit); (CCreateBreakpoint O a size, AObj (Some bp))] ++ h1).
    rewrite delivered_app, reported_app. destruct (tranquil_signals h1 (light_tranquil h1 L)) as [-> ->]. split; reflexivity.
  Qed.
  Lemma light_signals h : light h -> delivered h = [] /\ reported h = [].
  Proof. intros L. destruct (tranquil_signals h (light_tranquil h L)); auto. Qed.
  Lemma tail_light s : light [(CLog (LInterrupted O s), AUnit); (CDisplay (ProcessSignal s O), AUnit)].
  Proof. repeat constructor. Qed.
  Lemma not_strange g g1 ev h w w' : g_hist g1 = h ++ g_hist g -> explained_s w h w' -> ~ strange g g1 ev.
  Proof. intros Hh W (c & h' & H1 & H2 & H3). rewrite H1 in Hh. apply app_inv_tail in Hh. subst h'. apply H3. exact (proj1 (es_event _ _ _ _ _ _ _ _ _ W H2)). Qed.

  Lemma overseen_one st o c st1 o1 d n st2 : sdebugged E K exec G st o c st1 o1 d n -> seen st1 st2 -> overseen E K exec G st o [c] st2 o1 d n.
  Proof. intros H S. rewrite <- (app_nil_r d), <- (app_nil_r n). eapply OCons; [exact H|]. eapply OSeen; [exact S|constructor]. Qed.

  (** *** until *)
  Lemma until_interrupted t g g0 g1 o ev h st w1 : g_process g = O -> g_last g = last_signal o -> until p dis eval env t g = (g0, Raise (XEvent ev)) ->
    forall s, ev = signal s -> processSignal env s O g0 = (g1, Ret tt) -> g_hist g1 = h ++ g_hist g -> explained_s (World st Stopped) h w1 -> acts_s g o (KUntil t) st h w1 g1.
  Proof.
    intros Hp Hl H s -> Hs Hh W. unfold until, or_message in H. apply bind_event in H as [H|(g2 & ra & H1 & H2)].
    { exfalso. unfold gtry, gbind in H. rewrite parse_run in H. destruct (GdbSpec.parse _ _ _ _ _) as [a|e]; [discriminate H|]. destruct e; discriminate H. }
    assert (exists a, g2 = g /\ reads g t a /\ ra = Ok a) as (a & -> & Ra & ->).
    { unfold gtry, gbind in H1. unfold reads_at. fold p. destruct (g_parseInteger p eval env t g) as [g3 [a|x]] eqn:Ep.
      - pose proof (parse_state E eval env _ _ _ _ Ep). subst g3. cbn in H1. injection H1 as <- <-. eauto.
      - destruct x as [[]|]; cbn in H1; try discriminate H1. injection H1 as <- <-. discriminate H2. }
    clear H1. unfold step in H2. cbn [negb] in H2. apply bind_event in H2 as [H|(g3 & m & H3 & H)].
    - apply bind_event in H as [H|(g3 & u & H3 & H)]; [discriminate H|]. cbn in H3. injection H3 as <- _. apply over_event in H as [(h1 & size & bp & L1 & P1 & La1 & G1)|Hst]; [| |exact Hp].
      + destruct (handle_light s g0 g1 tt o P1 ltac:(congruence) Hs) as (P2 & La2 & G2).
        set (tl := [(CLog (LInterrupted O s), AUnit); (CDisplay (ProcessSignal s O), AUnit)]) in *.
        assert (h = tl ++ over a size bp (signal s) h1) as -> by (apply (app_inv_tail (g_hist g)); rewrite <- Hh, G2, G1, <- app_assoc; reflexivity).
        apply es_app in W as (w & W1 & W2). apply (over_interrupted _ _ _ _ _ _ _ _ L1) in W1 as (st0 & st1 & s' & -> & Es & Ns & S0 & D). injection Es as <-.
        apply (light_es E K exec G _ _ _ _ (tail_light s)) in W2 as (st2 & -> & S2).
        exists [Step a size], st2, (Some s), [], [s]. split; [reflexivity|]. split; [|split; [|split]].
        * apply MUntil with (r := AObj (Some bp)); [exact Ra|]. apply in_app_iff. right. cbn. auto 8.
        * intros l' M. inversion M; subst; try discriminate.
          -- match goal with H : In _ _ |- _ => destruct (over_in _ _ _ _ _ _ _ _ _ L1 (tail_light s) H) as [-> ->] end. reflexivity.
          -- exfalso. match goal with H : forall a, ~ reads_at _ _ _ _ _ _, O : _ \/ _ \/ _ |- _ => destruct O as [O|[O|O]]; try discriminate O; injection O as ->; exact (H _ Ra) end.
        * eapply OSeen; [exact S0|]. exact (overseen_one _ _ _ _ _ _ _ _ (D o) S2).
        * split; [exact P2|]. split; [exact La2|]. split; [congruence|]. rewrite delivered_app, reported_app. destruct (over_signals a size bp s h1 L1) as [-> ->]. split; reflexivity.
      + exfalso. destruct Hst as (c & h0 & G0 & Hi & Hc).
        assert (exists h', g_hist g1 = h' ++ g_hist g0) as (h' & G1) by exact (signal_ret _ _ _ _ _ _ Hs).
        assert (h = h' ++ h0) as -> by (apply (app_inv_tail (g_hist g)); rewrite <- Hh, G1, G0, app_assoc; reflexivity).
        apply Hc. refine (proj1 (es_event E K exec G _ _ _ c _ W _)). apply in_app_iff. right. exact Hi.
    - exfalso. apply bind_ret in H3 as (g4 & u & H4 & H3). cbn in H4. injection H4 as <- _. apply over_ret in H3 as (h1 & size & bp & ev' & -> & L1 & P2 & _ & G2); [|exact Hp].
      apply bind_event in H as [H|(g4 & u' & _ & H)]; [|discriminate H]. apply display_event in H as (c & h0 & G0 & Hi & Hc).
      assert (exists h', g_hist g1 = h' ++ g_hist g0) as (h' & G1) by exact (signal_ret _ _ _ _ _ _ Hs).
      assert (exists h3, h = h' ++ h0 ++ h3) as (h3 & ->).
      { exists ((CDesinstall bp true, AUnit) :: (CWait O SIGTRAP, AEvent ev') :: (CCont O 0, AUnit) :: (CCreateBreakpoint O a size, AObj (Some bp)) :: h1). apply (app_inv_tail (g_hist g)). rewrite <- Hh, G1, G0, G2. rewrite <- !app_assoc. reflexivity. }
      apply Hc. refine (proj1 (es_event E K exec G _ _ _ c _ W _)). apply in_app_iff. right. apply in_app_iff. left. exact Hi.
  Qed.
  (** *** step *)
  Lemma step_interrupted g g0 g1 o ev h st w1 : g_process g = O -> g_last g = last_signal o -> step p dis env false None g = (g0, Raise (XEvent ev)) ->
    forall s, ev = signal s -> processSignal env s O g0 = (g1, Ret tt) -> g_hist g1 = h ++ g_hist g -> explained_s (World st Stopped) h w1 -> acts_s g o KStep st h w1 g1.
  Proof.
    intros Hp Hl H s -> Hs Hh W. assert (exists h', g_hist g1 = h' ++ g_hist g0) as (h' & G') by exact (signal_ret _ _ _ _ _ _ Hs).
    assert (forall g2 h3, g_hist g2 = h3 ++ g_hist g -> strange g2 g0 (signal s) -> False) as No.
    { intros g2 h3 G2 (c & h0 & G0 & Hi & Hc). assert (h = h' ++ h0 ++ h3) as -> by (apply (app_inv_tail (g_hist g)); rewrite <- Hh, G', G0, G2, <- !app_assoc; reflexivity).
      apply Hc. refine (proj1 (es_event E K exec G _ _ _ c _ W _)). apply in_app_iff. right. apply in_app_iff. left. exact Hi. }
    unfold step in H. apply bind_event in H as [H|(g2 & u & H1 & H)]; [exfalso; apply (No g []); [reflexivity|]; exact (display_event _ _ _ _ _ _ H)|].
    apply displayInstr_ret in H1 as (h1 & G1 & L1 & P1 & La1).
    cbn [negb] in H. apply bind_event in H as [H|(g3 & g3' & H3 & H)]; [discriminate H|]. cbn in H3. inversion H3; subst g3 g3'. clear H3. rewrite P1, Hp in H.
    apply bind_event in H as [H|(g3 & ip & H3 & H)]; [exfalso; apply int_event in H; subst g0; apply (No g2 h1 G1), strange_here; discriminate|]. apply int_ret in H3. subst g3.
    assert (g_hist (push (CGetIP 0) (AInt ip) g2) = ((CGetIP O, AInt ip) :: h1) ++ g_hist g) as G3 by (cbn; now rewrite G1).
    apply bind_event in H as [H|(g4 & size & H4 & H)]; [exfalso; exact (No _ _ G3 (size_event _ _ _ _ _ _ H))|]. apply instrSize_ret in H4 as (h2 & (G4 & L2 & P4 & La4) & N).
    assert (g_process g4 = O) as P5 by (rewrite P4; cbn; congruence).
    assert (g_hist g4 = (h2 ++ (CGetIP O, AInt ip) :: h1) ++ g_hist g) as G5 by (rewrite G4, G3, app_assoc; reflexivity).
    assert (exists n, size = Some n /\ gbind (step_break dis env (ip + n)) (fun bp => step_wait env (Some bp)) g4 = (g0, Raise (XEvent (signal s)))) as (n & Hz & H5).
    { destruct size as [n|]; [destruct (n =? 0)|]; cbn in H; [discriminate H|eauto|discriminate H]. }
    specialize (N n Hz). assert (g_process (push (CGetIP 0) (AInt ip) g2) = O) as P6 by (cbn; congruence). rewrite P6 in N.
    apply over_event in H5 as [(h3 & size3 & bp & L3 & P3 & La3 & G6)|Hst]; [|exfalso; exact (No _ _ G5 Hst)|exact P5].
    assert (g_last g0 = last_signal o) as La0 by (rewrite La3, La4; cbn; congruence).
    destruct (handle_light s g0 g1 tt o P3 La0 Hs) as (P7 & La7 & G7). set (tl := [(CLog (LInterrupted O s), AUnit); (CDisplay (ProcessSignal s O), AUnit)]) in *.
    set (pre := h2 ++ (CGetIP O, AInt ip) :: h1) in *.
    assert (h = tl ++ over (ip + n) size3 bp (signal s) h3 ++ pre) as ->.
    { apply (app_inv_tail (g_hist g)). rewrite <- Hh, G7, G6, G5. unfold over. cbn [app]. rewrite !app_assoc. reflexivity. }
    assert (forall a sz r, ~ In (CCreateBreakpoint O a sz, r) pre) as Npre.
    { intros a sz r Hi. subst pre. apply in_app_iff in Hi as [Hi|[Hi|Hi]]; [|discriminate Hi|].
      - apply (light_no _ _ _ L2 Hi). cbn. auto.
      - apply (light_no _ _ _ L1 Hi). cbn. auto. }
    assert (forall a sz r, In (CCreateBreakpoint O a sz, r) (tl ++ over (ip + n) size3 bp (signal s) h3 ++ pre) -> a = ip + n /\ sz = size3) as Hone.
    { intros a sz r Hi. rewrite app_assoc in Hi. apply in_app_iff in Hi as [Hi|Hi]; [exact (over_in _ _ _ _ _ _ _ _ _ L3 (tail_light s) Hi)|exfalso; exact (Npre _ _ _ Hi)]. }
    assert (Forall tranquil pre) as Tp by (subst pre; apply Forall_app; split; [now apply light_tranquil|constructor; [exact I|now apply light_tranquil]]).
    apply es_app in W as (w & W1 & W2). apply es_app in W1 as (w0 & W0 & W1). apply es_plain in W0; [|exact Tp]. apply looks_seen in W0 as (stp & -> & Sp).
    - apply (over_interrupted _ _ _ _ _ _ _ _ L3) in W1 as (st0 & st1 & s' & -> & Es & Ns & S0 & D). injection Es as <-.
      apply (light_es E K exec G _ _ _ _ (tail_light s)) in W2 as (st2 & -> & S2).
      exists [Step (ip + n) size3], st2, (Some s), [], [s]. split; [reflexivity|]. split; [|split; [|split]].
      + apply MStep with (r := AObj (Some bp)).
        * apply in_app_iff. right. apply in_app_iff. right. subst pre. apply in_app_iff. right. now left.
        * apply in_app_iff. right. apply in_app_iff. right. subst pre. apply in_app_iff. left. exact N.
        * apply in_app_iff. right. apply in_app_iff. left. cbn. auto 8.
      + intros l' M. inversion M as [| | |ip' n' size' r' h'' Hi1 Hi2 Hi3| | | |h'' Hno|k' h'' Hk]; subst; try discriminate; try (match goal with H : _ \/ _ \/ _ |- _ => destruct H as [H|[H|H]]; discriminate H end).
        * destruct (Hone _ _ _ Hi3) as [-> ->]. reflexivity.
        * rewrite Forall_forall in Hno. exfalso. apply (Hno (CCreateBreakpoint O (ip + n) size3, AObj (Some bp))).
          -- apply in_app_iff. right. apply in_app_iff. left. cbn. auto 8.
          -- exists (ip + n), size3. reflexivity.
      + eapply OSeen; [exact Sp|]. eapply OSeen; [exact S0|]. exact (overseen_one _ _ _ _ _ _ _ _ (D o) S2).
      + split; [exact P7|]. split; [exact La7|]. split; [congruence|]. rewrite !delivered_app, !reported_app. destruct (over_signals (ip + n) size3 bp s h3 L3) as [-> ->].
        destruct (tranquil_signals pre Tp) as [-> ->]. split; reflexivity.
    - subst pre. apply Forall_app. split; [|constructor; [cbn; auto|]]; (eapply Forall_impl; [|eassumption]; intros x [?|?]; auto).
  Qed.
  (** *** stepi *)
  Lemma stepi_interrupted g g0 g1 o ev h st w1 : g_process g = O -> g_last g = last_signal o -> step p dis env true None g = (g0, Raise (XEvent ev)) ->
    forall s, ev = signal s -> processSignal env s O g0 = (g1, Ret tt) -> g_hist g1 = h ++ g_hist g -> explained_s (World st Stopped) h w1 -> acts_s g o KStepi st h w1 g1.
  Proof.
    intros Hp Hl H s -> Hs Hh W. assert (exists h', g_hist g1 = h' ++ g_hist g0) as (h' & G') by exact (signal_ret _ _ _ _ _ _ Hs).
    assert (forall g2 h3, g_hist g2 = h3 ++ g_hist g -> strange g2 g0 (signal s) -> False) as No.
    { intros g2 h3 G2 (c & h0 & G0 & Hi & Hc). assert (h = h' ++ h0 ++ h3) as -> by (apply (app_inv_tail (g_hist g)); rewrite <- Hh, G', G0, G2, <- !app_assoc; reflexivity).
      apply Hc. refine (proj1 (es_event E K exec G _ _ _ c _ W _)). apply in_app_iff. right. apply in_app_iff. left. exact Hi. }
    unfold step in H. apply bind_event in H as [H|(g2 & u & H1 & H)]; [exfalso; apply (No g []); [reflexivity|]; exact (display_event _ _ _ _ _ _ H)|].
    apply displayInstr_ret in H1 as (h1 & G1 & L1 & P1 & La1).
    cbn [negb] in H. apply bind_event in H as [H|(g3 & g3' & H3 & H)]; [discriminate H|]. cbn in H3. inversion H3; subst g3 g3'. clear H3. rewrite P1, Hp in H.
    apply bind_event in H as [H|(g3 & u2 & H3 & H)]; [exfalso; apply unit_event in H; subst g0; apply (No g2 h1 G1), strange_here; discriminate|]. apply unit_ret in H3. subst g3.
    apply bind_event in H as [H|(g3 & g3' & H3 & H)]; [discriminate H|]. cbn in H3. inversion H3; subst g3 g3'. clear H3. cbn [g_process push] in H. rewrite P1, Hp in H. unfold gtry in H.
    match type of H with (match ?m ?g with _ => _ end) = _ => destruct (m g) as [g3 [o3|x]] eqn:Em end; [discriminate H|]. cbn in H. injection H as -> ->.
    apply bind_event in Em as [Em|(g3 & ev & _ & Em)]; [|discriminate Em]. apply event_event in Em. subst g0.
    assert (g_last (push (CWait 0 SIGTRAP) (ARaise (XEvent (signal s))) (push (CStep 0) AUnit g2)) = last_signal o) as La0 by (cbn; congruence).
    assert (g_process (push (CWait 0 SIGTRAP) (ARaise (XEvent (signal s))) (push (CStep 0) AUnit g2)) = O) as P0 by (cbn; congruence).
    destruct (handle_light s _ g1 tt o P0 La0 Hs) as (P7 & La7 & G7). set (tl := [(CLog (LInterrupted O s), AUnit); (CDisplay (ProcessSignal s O), AUnit)]) in *.
    assert (h = tl ++ [(CWait O SIGTRAP, ARaise (XEvent (signal s))); (CStep O, AUnit)] ++ h1) as -> by (apply (app_inv_tail (g_hist g)); rewrite <- Hh, G7; cbn; rewrite G1; reflexivity).
    apply es_app in W as (w & W & W2). cbn [app] in W. apply es_cons in W as (w3 & W & A2). apply es_cons in W as (w2 & W & A1). apply (light_es E K exec G _ _ _ _ L1) in W as (st0 & -> & S0).
    apply as_plain in A1; [|exact I]. apply LinkProofs.step_inv in A1 as (_ & ->). apply stepi_event_inv in A2 as (s' & -> & Es & C). injection Es as <-.
    apply (light_es E K exec G _ _ _ _ (tail_light s)) in W2 as (st2 & -> & S2).
    exists [Stepi], st2, (Some s), [], [s]. split; [reflexivity|]. split; [constructor|]. split; [|split].
    - intros l' M. inversion M; subst; try reflexivity; try discriminate. match goal with H : _ \/ _ \/ _ |- _ => destruct H as [H|[H|H]]; discriminate H end.
    - eapply OSeen; [exact S0|]. refine (overseen_one _ _ _ _ _ _ _ _ _ S2). apply TStepi; exact C.
    - split; [exact P7|]. split; [exact La7|]. split; [intros [= Hz]; exact (proj1 C Hz)|]. rewrite !delivered_app, !reported_app. destruct (light_signals h1 L1) as [-> ->]. split; reflexivity.
  Qed.

  (** *** All commands *)
  Theorem ends_acts k g g1 o h st w1 : g_process g = O -> g_last g = last_signal o -> o <> Some 0 -> plain_command k -> ends E ns dis eval env k g g1 -> g_hist g1 = h ++ g_hist g ->
    explained_s (World st Stopped) h w1 -> acts_s g o k st h w1 g1.
  Proof.
    intros Hp Hl Ho Hk [(u & H)|(g0 & s & id & H & Hs)] Hh W; [exact (returns_acts E K exec G ns dis eval env k g g1 o u h st w1 Hp Hl Ho Hk H Hh W)|].
    cbn [handle] in Hs. destruct (run_told _ _ _ _ _ _ _ _ _ H) as (h0 & c & G0 & Hi). pose proof (signal_ret _ _ _ _ _ _ Hs) as (h' & G').
    assert (h = h' ++ h0) as Eh by (apply (app_inv_tail (g_hist g)); rewrite <- Hh, G', G0, app_assoc; reflexivity).
    assert (In (c, ARaise (XEvent (ProcessSignal s id))) h) as Hi' by (rewrite Eh; apply in_app_iff; now right).
    destruct (es_event _ _ _ _ _ _ _ _ _ W Hi') as (-> & s' & Es). injection Es as <- ->.
    assert (is_step k \/ k = KStepi) as Hstep.
    { destruct (run_lawful (e_p E) ns dis eval env k g) as (h2 & G2 & L). rewrite H in G2. cbn [fst] in G2. rewrite G2 in G0. apply app_inv_tail in G0. subst h2. rewrite Hp in L. exact (lawful_wait k h0 _ _ Hk L Hi eq_refl). }
    assert (ProcessSignal s O = signal s) as Es by reflexivity.
    destruct Hstep as [S| ->]; [destruct k; try contradiction S|].
    - exact (step_interrupted g g0 g1 o _ h st w1 Hp Hl H s Es Hs Hh W).
    - exact (until_interrupted t g g0 g1 o _ h st w1 Hp Hl H s Es Hs Hh W).
    - exact (stepi_interrupted g g0 g1 o _ h st w1 Hp Hl H s Es Hs Hh W).
  Qed.
  Theorem typed_overseen g w ks l g' w' : typed_s E K exec G ns dis eval env g w ks l g' w' -> forall st o, w = World st Stopped -> g_process g = O -> g_last g = last_signal o -> o <> Some 0 ->
    exists st' o' d n h, w' = World st' Stopped /\ overseen E K exec G st o l st' o' d n /\ g_last g' = last_signal o' /\ g_hist g' = h ++ g_hist g /\ delivered h = d /\ reported h = n /\
      g_process g' = O /\ o' <> Some 0.
  Proof.
    induction 1 as [g w|g w k ks l l' g1 w1 g2 w2 h Hk H Hh W M T IH]; intros st o -> Hp Hl Ho.
    - exists st, o, [], [], []. split; [reflexivity|]. split; [constructor|]. auto 8.
    - destruct (ends_acts k g g1 o h st w1 Hp Hl Ho Hk H Hh W) as (l0 & st1 & o1 & d & n & -> & _ & U & V & P1 & L1 & N1 & D1 & R1). rewrite (U l M).
      destruct (IH st1 o1 eq_refl P1 L1 N1) as (st2 & o2 & d' & n' & h2 & -> & V2 & L2 & H2 & D2 & R2 & P2 & N2). exists st2, o2, (d ++ d'), (n ++ n'), (h2 ++ h).
      split; [reflexivity|]. split; [exact (overseen_app E K exec G _ _ _ _ _ _ _ _ _ _ _ _ V V2)|]. split; [exact L2|]. split; [rewrite H2, Hh, app_assoc; reflexivity|].
      rewrite delivered_app, reported_app. split; [congruence|]. split; [congruence|]. auto.
  Qed.
End Commands.

Theorem signals_ideal E K exec G ns dis eval env g st ks l g' w' : fresh_process E K st -> g_process g = O -> g_last g = [] -> g_hist g = [] ->
  typed_s E K exec G ns dis eval env g (World st Stopped) ks l g' w' ->
  let i := Ideal (s_mem (b_mem st)) (r_regs (b_regs st)) [] in
  orderly E exec G i None l -> exists i' st' o, w' = World st' Stopped /\ proceed E exec G i None l i' o (delivered (g_hist g')) (reported (g_hist g')) /\ in_state st' i' /\ g_last g' = last_signal o.
Proof.
  intros F Hp Hl Hh T i Ht. destruct (typed_overseen _ _ _ _ _ _ _ _ _ _ _ _ _ _ T st None eq_refl Hp Hl) as (st' & o & d & n & h & -> & V & La & H & D & R & _); [discriminate|].
  rewrite Hh, app_nil_r in H. pose proof (fresh_sim E K st F) as S.
  destruct F as (HE & Hi & Hnat & Hg & Hs & _). destruct (sim_session E K exec G HE Hi Hnat Hg Hs st None l st' o d n V i S Ht) as (i' & I & S').
  exists i', st', o. split; [reflexivity|]. rewrite H, D, R. split; [exact I|]. split; [exact (sim_state E Hi i' st' S')|exact La].
Qed.
Theorem signals_undebugged E K exec G ns dis eval env g st ks l g' w' : fresh_process E K st -> g_process g = O -> g_last g = [] -> g_hist g = [] ->
  typed_s E K exec G ns dis eval env g (World st Stopped) ks l g' w' -> orderly E exec G (Ideal (s_mem (b_mem st)) (r_regs (b_regs st)) []) None l ->
  exists st' k o, w' = World st' Stopped /\ lives exec G (s_mem (b_mem st)) (r_regs (b_regs st)) (delivered (g_hist g')) k (r_regs (b_regs st')) /\
    (forall x, (forall bp, live st' bp -> ~ covers bp x) -> k_byte (s_mem (b_mem st')) x = k_byte k x) /\
    g_last g' = last_signal o /\ reported (g_hist g') = delivered (g_hist g') ++ pending o /\ (forall s, o = Some s -> comes G s k (r_regs (b_regs st'))).
Proof.
  intros F Hp Hl Hh T Ht. destruct (signals_ideal _ _ _ _ _ _ _ _ _ _ _ _ _ _ F Hp Hl Hh T Ht) as (i' & st' & o & -> & I & (S1 & S2 & S3 & S4 & _) & La).
  destruct (proceed_lives E exec G _ _ _ _ _ _ _ I Ht) as (L & Hd & Q); [discriminate|]. cbn [i_mem i_regs pending app] in L, Q.
  exists st', (i_mem i'), o. split; [reflexivity|]. split; [rewrite S1; exact L|]. split.
  - intros x Hx. apply S2. intros ([a n] & Ha & C). apply S4 in Ha as (bp & Lv & <- & <-). exact (Hx bp Lv C).
  - split; [exact La|]. split; [exact Q|]. intros s Es. rewrite S1. exact (Hd s Es).
Qed.
