(** * LinkProofs3: step, stepi, cont, the looks; sessions. *)
From Coq Require Import ZArith List Ascii Bool Lia.
From Verif Require Import PyBase Platform CallModel MemModel MemSpec StructModel RegModel RegSpec RegProofs BreakModel BreakSpec BreakProofs SessionModel SessionSpec SessionProofs2 SessionProofs4 LinkSpec.
From Verif Require TraceModel.
From Verif Require Import SigModel DbgModel GdbModel GdbProofs2 EffectSpec EffectProofs EffectProofs2 LinkProofs LinkProofs2.
Import ListNotations.
Open Scope Z_scope.

Section Commands.
  Context (E : penv) (K : rkernel) (exec : program).
  Context (ns : SigModel.namespace) (dis : bool) (eval : text -> res PyEval.pyval) (env : history -> gcall -> ans).
  Let p := e_p E.
  Local Notation reads g := (reads_at E eval env g).
  Local Notation acts := (acts E K exec eval env).

  Lemma step_acts g g1 o h st w1 : g_process g = O -> step p dis env false None g = (g1, Ret o) -> g_hist g1 = h ++ g_hist g ->
    explained E K exec (World st Stopped) h w1 -> acts g KStep st h w1.
  Proof.
    intros Hp H Hh W. unfold step in H. apply bind_ret in H as (g2 & u & H1 & H). apply displayInstr_ret in H1 as (h1 & G1 & L1 & P1 & _).
    cbn [negb] in H. apply bind_ret in H as (g3 & g3' & H3 & H). cbn in H3. inversion H3; subst g3 g3'. clear H3. rewrite P1, Hp in H.
    apply bind_ret in H as (g3 & ip & H3 & H). apply int_ret in H3. subst g3. apply bind_ret in H as (g4 & size & H4 & H). apply instrSize_ret in H4 as (h2 & (G4 & L2 & P4 & _) & N).
    assert (g_process g4 = O) as P5 by (rewrite P4; cbn; congruence).
    assert (g_hist g4 = (h2 ++ (CGetIP O, AInt ip) :: h1) ++ g_hist g) as G5 by (rewrite G4; cbn; rewrite G1, <- app_assoc; reflexivity).
    assert ((exists m, g1 = g4 /\ o = Some m) \/ exists n, size = Some n /\ gbind (step_break dis env (ip + n)) (fun bp => step_wait env (Some bp)) g4 = (g1, Ret o)) as [(m & -> & ->)|(n & Hs & H5)].
    { destruct size as [n|]; [destruct (n =? 0)|]; cbn in H; [inversion H; eauto|eauto|inversion H; eauto]. }
    - assert (h = h2 ++ (CGetIP O, AInt ip) :: h1) as -> by (apply (app_inv_tail (g_hist g)); congruence).
      assert (forall a s r, ~ In (CCreateBreakpoint O a s, r) (h2 ++ (CGetIP O, AInt ip) :: h1)) as Hn.
      { intros a s r Hi. apply in_app_iff in Hi as [Hi|[Hi|Hi]]; [|discriminate Hi|].
        - apply (light_no _ _ _ L2 Hi). cbn. auto.
        - apply (light_no _ _ _ L1 Hi). cbn. auto. }
      apply looks_seen in W as (st1 & -> & S).
      + exists [], st1. split; [reflexivity|]. split; [|split].
        * apply MNoStep. apply Forall_forall. intros [c r] Hi (a & s & Hc). cbn in Hc. subst c. exact (Hn _ _ _ Hi).
        * intros l' M. inversion M; subst; try reflexivity. exfalso. eapply Hn. eassumption.
        * now apply watched_seen.
      + apply Forall_app. split; [|constructor; [cbn; auto|]]; (eapply Forall_impl; [|eassumption]; intros x [?|?]; auto).
    - specialize (N n Hs). assert (g_process (push (CGetIP 0) (AInt ip) g2) = O) as P6 by (cbn; congruence). rewrite P6 in N.
      apply over_ret in H5 as (h3 & size3 & bp & ev & _ & L3 & P3 & _ & G3); [|exact P5].
      set (over := (CDesinstall bp true, AUnit) :: (CWait O SIGTRAP, AEvent ev) :: (CCont O 0, AUnit) :: (CCreateBreakpoint O (ip + n) size3, AObj (Some bp)) :: h3).
      assert (h = over ++ (h2 ++ (CGetIP O, AInt ip) :: h1)) as ->.
      { apply (app_inv_tail (g_hist g)). rewrite <- Hh, G3, G5. subst over. cbn [app]. rewrite !app_assoc. reflexivity. }
      assert (forall a s r, In (CCreateBreakpoint O a s, r) (over ++ (h2 ++ (CGetIP O, AInt ip) :: h1)) -> a = ip + n /\ s = size3) as Hone.
      { intros a s r Hi. subst over. apply in_app_iff in Hi as [Hi|Hi].
        - exact (over_once (ip + n) size3 _ _ _ _ _ _ [] h3 a s r L3 (Forall_nil _) Hi eq_refl).
        - exfalso. apply in_app_iff in Hi as [Hi|[Hi|Hi]]; [|discriminate Hi|].
          + apply (light_no _ _ _ L2 Hi). cbn. auto.
          + apply (light_no _ _ _ L1 Hi). cbn. auto. }
      apply explained_app in W as (w & W1 & W2). apply looks_seen in W1 as (st1 & -> & S).
      + apply over_watched in W2 as (st2 & -> & V); [|exact L3]. exists [Step (ip + n) size3], st2. split; [reflexivity|]. split; [|split].
        * apply MStep with (r := AObj (Some bp)).
          -- apply in_app_iff. right. apply in_app_iff. right. now left.
          -- apply in_app_iff. right. apply in_app_iff. left. exact N.
          -- apply in_app_iff. left. subst over. cbn. auto.
        * intros l' M. inversion M as [| | |ip' n' size' r' h' Hi1 Hi2 Hi3| | | |h' Hno|k' h' Hk]; subst; try discriminate; try (match goal with H : _ \/ _ \/ _ |- _ => destruct H as [H|[H|H]]; discriminate H end).
          -- destruct (Hone _ _ _ Hi3) as [-> ->]. reflexivity.
          -- rewrite Forall_forall in Hno. exfalso. apply (Hno (CCreateBreakpoint O (ip + n) size3, AObj (Some bp))).
             ++ apply in_app_iff. left. subst over. cbn. auto.
             ++ exists (ip + n), size3. reflexivity.
        * change ([Step (ip + n) size3]) with ([] ++ [Step (ip + n) size3]). exact (watched_app _ _ _ _ _ _ _ _ (watched_seen E K exec _ _ S) V).
      + apply Forall_app. split; [|constructor; [cbn; auto|]]; (eapply Forall_impl; [|eassumption]; intros x [?|?]; auto).
  Qed.
  Lemma stepi_acts g g1 o h st w1 : g_process g = O -> step p dis env true None g = (g1, Ret o) -> g_hist g1 = h ++ g_hist g ->
    explained E K exec (World st Stopped) h w1 -> acts g KStepi st h w1.
  Proof.
    intros Hp H Hh W. unfold step in H. apply bind_ret in H as (g2 & u & H1 & H). apply displayInstr_ret in H1 as (h1 & G1 & L1 & P1 & _).
    cbn [negb] in H. apply bind_ret in H as (g3 & g3' & H3 & H). cbn in H3. inversion H3; subst g3 g3'. clear H3. rewrite P1, Hp in H.
    apply bind_ret in H as (g3 & u' & H3 & H). apply unit_ret in H3. subst g3.
    apply bind_ret in H as (g3 & g3' & H3 & H). cbn in H3. inversion H3; subst g3 g3'. clear H3. cbn [g_process push] in H. rewrite P1, Hp in H. unfold gtry in H.
    match type of H with (match ?m ?g with _ => _ end) = _ => destruct (m g) as [g3 [o3|x]] eqn:Em end; [|discriminate H]. inversion H; subst g3 o3. clear H.
    apply bind_ret in Em as (g3 & ev & H3 & H). apply event_ret in H3. subst g3. cbn in H. inversion H; subst. cbn in Hh. rewrite G1 in Hh.
    assert (h = (CWait O SIGTRAP, AEvent ev) :: (CStep O, AUnit) :: h1) as -> by (apply (app_inv_tail (g_hist g)); now rewrite <- Hh).
    apply explained_cons in W as (w2 & W & A2). apply explained_cons in W as (w3 & W & A1). apply (light_seen E K exec _ _ _ _ L1) in W as (st0 & -> & S0).
    apply LinkProofs.step_inv in A1 as (_ & ->). apply stepping_inv in A2 as (k & r & -> & _ & R); [|auto].
    exists [Stepi], (stopped_with st0 k r). split; [reflexivity|]. split; [constructor|]. split.
    - intros l' M. inversion M; subst; try reflexivity; try discriminate. match goal with H : _ \/ _ \/ _ |- _ => destruct H as [H|[H|H]]; discriminate H end.
    - eapply watched_one; [exact S0| |apply seen_refl]. now apply DStepi.
  Qed.
  (** *** cont *)
  Lemma continue_ret id s g g1 u : continueProcess env id s g = (g1, Ret u) -> exists h, g_hist g1 = h ++ g_hist g.
  Proof.
    intros H. apply bind_ret in H as (g3 & g3' & H3 & H). cbn in H3. inversion H3; subst g3 g3'. clear H3.
    cbv zeta beta in H. match type of H with (if negb (?x =? 0) then _ else _) g = _ => generalize dependent x end. intros x H. destruct (x =? 0); cbn [negb] in H.
    - apply unit_ret in H. subst. exists [(CCont id 0, AUnit)]. reflexivity.
    - apply bind_ret in H as (g2 & u2 & H2 & H). cbn in H2. inversion H2; subst. apply bind_ret in H as (g3 & u3 & H3 & H). apply unit_ret in H3. subst. cbn in H. inversion H; subst.
      exists [(CCont id x, AUnit); (CLog (LSend x id), AUnit)]. unfold del_last. destruct (dmem _ _ _); reflexivity.
  Qed.
  Lemma loop_ret s l : forall g g1 u, cont_loop env s l g = (g1, Ret u) -> exists h, g_hist g1 = h ++ g_hist g.
  Proof.
    induction l as [|id l IH]; intros g g1 u H.
    - cbn in H. inversion H; subst. exists []. reflexivity.
    - unfold cont_loop in H. cbn [giter] in H. apply bind_ret in H as (g2 & u2 & H2 & H). apply bind_ret in H2 as (g3 & u3 & H3 & H2). apply unit_ret in H3. subst g3.
      apply bind_ret in H2 as (g3 & g3' & H3 & H2). cbn in H3. inversion H3; subst g3 g3'. clear H3. apply continue_ret in H2 as (h2 & H2). apply IH in H as (h3 & H).
      exists (h3 ++ h2 ++ [(CClear id, AUnit)]). rewrite H, H2. cbn. now rewrite <- !app_assoc.
  Qed.
  Lemma signal_ret s id g g1 u : processSignal env s id g = (g1, Ret u) -> exists h, g_hist g1 = h ++ g_hist g.
  Proof.
    intros H. apply bind_ret in H as (g2 & u2 & H2 & H). apply unit_ret in H2. subst. apply bind_ret in H as (g3 & u3 & H3 & H). cbn in H. inversion H; subst. cbn.
    unfold switchProcess, gbind, gget in H3. cbn in H3. destruct (Nat.eqb (g_process g) id); cbn in H3; inversion H3; subst; cbn.
    - exists [(CLog (LInterrupted (g_process g) s), AUnit); (CDisplay (ProcessSignal s id), AUnit)]. reflexivity.
    - exists [(CLog (LInterrupted id s), AUnit); (CLog (LSwitch id), AUnit); (CDisplay (ProcessSignal s id), AUnit)]. reflexivity.
  Qed.
  Lemma explained_mid h2 c a h1 w w2 : explained E K exec w (h2 ++ (c, a) :: h1) w2 -> exists w0 w1, explained E K exec w h1 w0 /\ answered E K exec w0 c a w1 /\ explained E K exec w1 h2 w2.
  Proof. intros H. apply explained_app in H as (w1 & H & H2). apply explained_cons in H as (w0 & H & A). eauto. Qed.
  Lemma cont_acts g g1 o h st w1 : g_process g = O -> g_last g = [] -> gdb_cont p env 0 g = (g1, Ret o) -> g_hist g1 = h ++ g_hist g ->
    explained E K exec (World st Stopped) h w1 -> acts g KCont st h w1 /\ g_process g1 = O /\ g_last g1 = [].
  Proof.
    intros Hp Hl H Hh W. assert (forall l', means (reads g) KCont h l' -> l' = [Continue]) as Hm.
    { intros l' M. inversion M; subst; try reflexivity; try discriminate. match goal with H : _ \/ _ \/ _ |- _ => destruct H as [H|[H|H]]; discriminate H end. }
    unfold gdb_cont in H. apply bind_ret in H as (g2 & l & H1 & H). apply procs_ret in H1. subst g2.
    apply bind_ret in H as (g2 & u & H1 & H). pose proof (loop_ret _ _ _ _ _ H1) as (h1 & G1). cbn [push g_hist] in G1.
    apply bind_ret in H as (g3 & ev & H3 & H). apply event_ret in H3. subst g3.
    assert (exists h2, g_hist g1 = h2 ++ (CWaitSignals, AEvent ev) :: h1 ++ (CProcesses, AProcs l) :: g_hist g) as (h2 & G2).
    { rewrite <- G1. change ((CWaitSignals, AEvent ev) :: g_hist g2) with (g_hist (push CWaitSignals (AEvent ev) g2)). destruct ev as [?|?|?|s id]; try discriminate H. destruct (s =? SIGTRAP).
      - apply bind_ret in H as (g3 & g3' & H3 & H). cbn in H3. inversion H3; subst g3 g3'. clear H3. apply bind_ret in H as (g3 & ip & H3 & H). apply int_ret in H3. subst g3.
        apply bind_ret in H as (g3 & bp & H3 & H). apply obj_ret in H3. subst g3. destruct bp as [bp|].
        + apply bind_ret in H as (g3 & u3 & H3 & H). cbn in H3. injection H3 as <- _. apply bind_ret in H as (g4 & u4 & H4 & H). apply unit_ret in H4. subst g4. cbn in H. inversion H; subst g1. cbn [push g_hist].
          eexists [_; _; _; _]. reflexivity.
        + cbn in H. inversion H; subst g1. cbn [push g_hist]. eexists [_; _]. reflexivity.
      - apply bind_ret in H as (g3 & u3 & H3 & H). cbn in H. inversion H; subst g3. exact (signal_ret _ _ _ _ _ H3). }
    assert (h = h2 ++ (CWaitSignals, AEvent ev) :: h1 ++ [(CProcesses, AProcs l)]) as Eh.
    { apply (app_inv_tail (g_hist g)). rewrite <- Hh, G2, <- !app_assoc. cbn. now rewrite <- app_assoc. }
    pose proof W as W'. rewrite Eh in W'. apply explained_mid in W' as (wa & wb & W1 & Aw & W2). apply explained_mid in W1 as (wc & wd & W0 & A0 & W1). apply explained_nil in W0. subst wc.
    apply procs_inv in A0 as ([= ->] & ->).
    (* the loop over the only process *)
    assert (h1 = [(CCont O 0, AUnit); (CClear O, AUnit)] /\ g_process g2 = O /\ g_last g2 = []) as (-> & P2 & La2).
    { unfold cont_loop in H1. cbn [giter] in H1. apply bind_ret in H1 as (g3 & u3 & H3 & H1). cbn in H1. injection H1 as -> _.
      apply bind_ret in H3 as (g3 & u4 & H4 & H3). apply unit_ret in H4. subst g3. apply bind_ret in H3 as (g3 & g3' & H4 & H3). cbn in H4. inversion H4; subst g3 g3'. clear H4.
      unfold continueProcess in H3. apply bind_ret in H3 as (g3 & g3' & H4 & H3). cbn in H4. inversion H4; subst g3 g3'. clear H4.
      cbn [push g_last g_process] in H3. rewrite Hl, Hp in H3. change (ask_unit env (CCont O 0) (push (CClear 0) AUnit (push CProcesses (AProcs [O]) g)) = (g2, Ret u3)) in H3. apply unit_ret in H3. subst g2. cbn in G1. split; [|cbn; auto].
      apply (app_inv_tail ((CProcesses, AProcs [O]) :: g_hist g)). rewrite <- G1. reflexivity. }
    apply explained_cons in W1 as (we & W1 & A2). apply explained_cons in W1 as (wf & W1 & A1). apply explained_nil in W1. subst wf.
    apply else_inv in A1; [|exact I]. subst we. apply cont_inv in A2 as (_ & ->). apply running_inv in Aw as (k & r & -> & Ev & R); [|auto]. injection Ev as ->.
    cbn [Z.eqb SIGTRAP Pos.eqb] in H. apply bind_ret in H as (g3 & g3' & H3 & H). cbn in H3. inversion H3; subst g3 g3'. clear H3. cbn [push g_process] in H. rewrite P2 in H.
    apply bind_ret in H as (g3 & ip & H3 & H). apply int_ret in H3. subst g3. apply bind_ret in H as (g3 & bp & H3 & H). apply obj_ret in H3. subst g3.
    pose proof (DContinue E K exec st k r R) as D. unfold hit_breakpoint in D. fold p in D.
    destruct bp as [bp|].
    - apply bind_ret in H as (g3 & u3 & H3 & H). cbn in H3. injection H3 as <- _. apply bind_ret in H as (g4 & u4 & H4 & H). apply unit_ret in H4. subst g4. cbn in H. inversion H; subst g1. split; [|cbn; auto].
      cbn [push g_hist] in G2. rewrite G1 in G2.
      match type of G2 with ?c1 :: ?c2 :: ?c3 :: ?c4 :: ?t = h2 ++ ?t' => assert (h2 = [c1; c2; c3; c4]) as -> by (apply (app_inv_tail t'); rewrite <- G2; reflexivity) end.
      apply explained_cons in W2 as (w2 & W2 & B4). apply explained_cons in W2 as (w3 & W2 & B3). apply explained_cons in W2 as (w4 & W2 & B2). apply explained_cons in W2 as (w5 & W2 & B1).
      apply explained_nil in W2. subst w5. apply pointer_inv in B1 as (_ & rg & ro & GP & Er & ->). destruct ro as [v|e]; cbn in Er; [|discriminate]. injection Er as <-.
      apply find_inv in B2 as (_ & F & ->). injection F as F. apply else_inv in B3; [|exact I]. subst w2. apply remove_inv in B4 as (_ & st2 & r2 & Dd & _ & ->).
      exists [Continue], st2. split; [reflexivity|]. split; [constructor|]. split; [exact Hm|].
      eapply watched_one; [apply seen_refl| |apply seen_refl]. fold p in GP. rewrite GP in D. cbn [fst] in D. rewrite <- F, Dd in D. destruct r2; exact D.
    - cbn in H. inversion H; subst g1. split; [|cbn; auto]. cbn [push g_hist] in G2. rewrite G1 in G2.
      match type of G2 with ?c1 :: ?c2 :: ?t = h2 ++ ?t' => assert (h2 = [c1; c2]) as -> by (apply (app_inv_tail t'); rewrite <- G2; reflexivity) end.
      apply explained_cons in W2 as (w4 & W2 & B2). apply explained_cons in W2 as (w5 & W2 & B1).
      apply explained_nil in W2. subst w5. apply pointer_inv in B1 as (_ & rg & ro & GP & Er & ->). destruct ro as [v|e]; cbn in Er; [|discriminate]. injection Er as <-.
      apply find_inv in B2 as (_ & F & ->). injection F as F.
      eexists [Continue], _. split; [reflexivity|]. split; [constructor|]. split; [exact Hm|].
      eapply watched_one; [apply seen_refl| |apply seen_refl]. fold p in GP. rewrite GP in D. cbn [fst] in D. rewrite <- F in D. exact D.
  Qed.

  (** ** All commands *)
  Lemma look_acts g k g1 o h st w1 : g_process g = O -> looking k = true -> GdbModel.run p ns dis eval env k g = (g1, o) -> g_hist g1 = h ++ g_hist g ->
    explained E K exec (World st Stopped) h w1 -> acts g k st h w1.
  Proof.
    intros Hp Hk H Hh W. destruct (run_looking p ns dis eval env k g Hk) as (h' & H1 & H2). rewrite H in H1. cbn in H1. rewrite H1 in Hh. apply app_inv_tail in Hh. subst h'. rewrite Hp in H2.
    apply looks_seen in W as (st1 & -> & S).
    - exists [], st1. split; [reflexivity|]. split; [now apply MLook|]. split; [|now apply watched_seen].
      intros l' M. inversion M; subst; try reflexivity; discriminate.
    - eapply Forall_impl; [|exact H2]. auto.
  Qed.
  Theorem command_acts g k g1 o h st w1 : g_process g = O -> g_last g = [] -> plain_command k -> GdbModel.run p ns dis eval env k g = (g1, Ret o) -> g_hist g1 = h ++ g_hist g ->
    explained E K exec (World st Stopped) h w1 -> acts g k st h w1 /\ g_process g1 = O /\ g_last g1 = [].
  Proof.
    intros Hp Hl Hk H Hh W. pose proof (run_state p ns dis eval env k g g1 _ H) as (S1 & S2 & _).
    assert (changes_process k = false -> changes_signals k = false -> acts g k st h w1 -> acts g k st h w1 /\ g_process g1 = O /\ g_last g1 = []) as Hs.
    { intros A1 A2 A. split; [exact A|]. rewrite S1, S2 by assumption. auto. }
    destruct k; cbn in Hk; try discriminate Hk; try contradiction Hk; try (apply Hs; [reflexivity|reflexivity|]; now apply (look_acts g _ g1 (Ret o) h st w1)).
    - exact (cont_acts g g1 o h st w1 Hp Hl H Hh W).
    - apply Hs; [reflexivity|reflexivity|]. exact (step_acts g g1 o h st w1 Hp H Hh W).
    - apply Hs; [reflexivity|reflexivity|]. exact (stepi_acts g g1 o h st w1 Hp H Hh W).
    - apply Hs; [reflexivity|reflexivity|]. exact (until_acts E K exec dis eval env t g g1 o h st w1 Hp H Hh W).
    - apply Hs; [reflexivity|reflexivity|]. exact (break_acts E K exec dis eval env t g g1 o h st w1 Hp H Hh W).
    - apply Hs; [reflexivity|reflexivity|]. exact (delete_acts E K exec eval env t g g1 o h st w1 Hp H Hh W).
  Qed.
  Theorem typed_watched g w ks l g' w' : typed E K exec ns dis eval env g w ks l g' w' -> forall st, w = World st Stopped -> g_process g = O -> g_last g = [] ->
    exists st', w' = World st' Stopped /\ watched E K exec st l st'.
  Proof.
    induction 1 as [g w|g w k ks l l' g1 w1 g2 w2 h o Hk H Hh W M T IH]; intros st -> Hp Hl.
    - exists st. split; [reflexivity|constructor].
    - destruct (command_acts g k g1 o h st w1 Hp Hl Hk H Hh W) as ((l0 & st1 & -> & _ & U & V) & P1 & L1). rewrite (U l M). 
      destruct (IH st1 eq_refl P1 L1) as (st2 & -> & V2). exists st2. split; [reflexivity|]. eapply watched_app; eassumption.
  Qed.
End Commands.

(** ** Looks and the simulation of C125 *)
Lemma sim_seen E i st st' : seen st st' -> sim E i st -> sim E i st'.
Proof.
  destruct st as [m rg b ob d], st' as [m' rg' b' ob' d']. intros (S1 & S2 & S0 & S3 & S4 & S5 & S6) S. cbn in *. subst.
  destruct S as [I R W B F T]. constructor; cbn in *; auto; try congruence.
  destruct I as [I1 I2 I3 I4 I5 I6 I7]. constructor; cbn in *; auto.
  - intros a id Hi. destruct (I3 a id Hi) as (bp & A1 & A2 & A3 & A4 & A5 & A6 & A7). exists bp. do 5 (split; [assumption|]). split.
    + unfold accessible, file_usable in *. rewrite ?S1. tauto.
    + destruct A7 as (new & B1 & B2 & B3). exists new. rewrite S1. auto.
  - intros x Hx. rewrite S1. now apply I6.
  - intros x. rewrite S1. apply I7.
Qed.
Lemma watched_sound E K exec : plain E -> is_intel (p_cpu (e_p E)) = true -> native (e_p E) -> rk_get K = None -> (forall r, rk_set K r = None) ->
  forall st l st', watched E K exec st l st' -> forall i, sim E i st -> tame E exec i l -> exists i', ideals E exec i l i' /\ sim E i' st'.
Proof.
  intros HE Hi Hnat Hg Hs st l st' V. induction V as [st|st st1 l st2 S V IH|st c st1 l st2 D V IH]; intros i S0 T.
  - exists i. split; [constructor|exact S0].
  - apply IH; [exact (sim_seen E i st st1 S S0)|exact T].
  - destruct (proj1 (sim_command E K exec HE Hi Hnat Hg Hs i c st l S0 T) st1 D) as (i1 & I1 & S1). destruct (IH i1 S1) as (i2 & I2 & S2); [apply T; exact I1|].
    exists i2. split; [exact (ICons _ _ i c i1 l i2 I1 I2)|exact S2].
Qed.
Theorem typed_sound E K exec ns dis eval env g st ks l g' w' : fresh_process E K st -> g_process g = O -> g_last g = [] ->
  typed E K exec ns dis eval env g (World st Stopped) ks l g' w' ->
  let i := Ideal (s_mem (b_mem st)) (r_regs (b_regs st)) [] in
  tame E exec i l -> exists i' st', w' = World st' Stopped /\ ideals E exec i l i' /\ in_state st' i'.
Proof.
  intros F Hp Hl T i Ht. destruct (typed_watched _ _ _ _ _ _ _ _ _ _ _ _ _ T st eq_refl Hp Hl) as (st' & -> & V). pose proof (fresh_sim E K st F) as S.
  destruct F as (HE & Hi & Hnat & Hg & Hs & _). destruct (watched_sound E K exec HE Hi Hnat Hg Hs st l st' V i S Ht) as (i' & I & S').
  exists i', st'. split; [reflexivity|]. split; [exact I|]. exact (sim_state E Hi i' st' S').
Qed.
Theorem typed_undebugged E K exec ns dis eval env g st ks l g' w' : fresh_process E K st -> g_process g = O -> g_last g = [] ->
  typed E K exec ns dis eval env g (World st Stopped) ks l g' w' -> tame E exec (Ideal (s_mem (b_mem st)) (r_regs (b_regs st)) []) l ->
  exists st' k, w' = World st' Stopped /\ reaches (e_p E) exec [] (s_mem (b_mem st)) (r_regs (b_regs st)) k (r_regs (b_regs st')) /\
    (forall x, (forall bp, live st' bp -> ~ covers bp x) -> k_byte (s_mem (b_mem st')) x = k_byte k x).
Proof.
  intros F Hp Hl T Ht. destruct (typed_sound _ _ _ _ _ _ _ _ _ _ _ _ _ F Hp Hl T Ht) as (i' & st' & -> & I & S1 & S2 & S3 & S4 & _).
  pose proof (ideals_run E exec l _ _ I) as R. cbn in R. exists st', (i_mem i'). split; [reflexivity|]. split; [rewrite S1; exact R|].
  intros x Hx. apply S2. intros ([a n] & Ha & C). apply S4 in Ha as (bp & L & <- & <-). exact (Hx bp L C).
Qed.
(** ** Reading is looking *)
Lemma readBytes_seen E st a n : seen st (with_mem st (fst (readBytes E a n (b_mem st)))).
Proof.
  destruct st as [m rg b ob d]. cbn. unfold seen. cbn. split; [apply MemProofs.readBytes_mem|].
  assert ((s_file m <> FileClosed -> s_file (fst (readBytes E a n m)) <> FileClosed) /\ (s_fallback m = true -> s_fallback (fst (readBytes E a n m)) = true)) as [H1 H2]; [|auto 8].
  unfold readBytes. destruct (has_ptrace_io _).
  { unfold readBytes_io. destruct (n <? 0); [auto|]. destruct (_ && _); auto. }
  destruct (has_proc _); [|rewrite MemProofs.readBytes_ptrace_state; auto].
  destruct (s_fallback m) eqn:Ef; [rewrite MemProofs.readBytes_ptrace_state; auto|].
  split; [|discriminate]. intros Hf. unfold readBytes_procmem.
  set (s1 := match s_file m with FileNone => _ | _ => _ end).
  assert (s_file s1 <> FileClosed) as H1 by (unfold s1; destruct (s_file m) eqn:Em, (e_open E); cbn; rewrite ?Em; congruence).
  destruct (s_file s1) eqn:E1; [|destruct (_ <=? a); [cbn; congruence|destruct (a <? 0); [cbn; congruence|]]|congruence].
  + destruct (e_open E) as [|[]]; rewrite ?MemProofs.readBytes_ptrace_state; cbn; congruence.
  + destruct (e_read E (s_mem s1) a n) as [dd|[]]; try (cbn; congruence).
    destruct (_ && _); [rewrite MemProofs.readBytes_ptrace_state|]; cbn; congruence.
Qed.
Lemma getreg_seen K p name st : seen st (with_regs st (fst (getreg K p name (b_regs st)))).
Proof. destruct st. unfold seen. cbn. repeat split; auto. apply getreg_regs. Qed.
