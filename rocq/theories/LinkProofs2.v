(** * LinkProofs2: the commands of gdb.py are the actions of SessionSpec. *)
From Coq Require Import ZArith List Ascii Bool Lia.
From Verif Require Import PyBase Platform CallModel MemModel StructModel RegModel RegProofs BreakModel SessionModel SessionSpec LinkSpec.
From Verif Require TraceModel.
From Verif Require Import SigModel DbgModel GdbModel GdbProofs2 EffectSpec EffectProofs EffectProofs2 LinkProofs.
Import ListNotations.
Open Scope Z_scope.

Section Commands.
  Context (E : penv) (K : rkernel) (exec : program).
  Context (ns : SigModel.namespace) (dis : bool) (eval : text -> res PyEval.pyval) (env : history -> gcall -> ans).
  Let p := e_p E.
  Local Notation reads g := (reads_at E eval env g).
  (** [k] asked for exactly [l], which happened *)
  Definition acts (g : gstate) (k : GdbModel.command) (st : bstate) (h : history) (w1 : world) : Prop :=
    exists l st1, w1 = World st1 Stopped /\ means (reads g) k h l /\ (forall l', means (reads g) k h l' -> l' = l) /\ watched E K exec st l st1.

  Lemma parse_state t g g' o : g_parseInteger p eval env t g = (g', o) -> g' = g.
  Proof. rewrite parse_run. destruct (GdbSpec.parse _ _ _ _ _); intros H; inversion H; reflexivity. Qed.
  Lemma reads_fun g t a b : reads g t a -> reads g t b -> a = b.
  Proof. unfold reads_at. intros H1 H2. rewrite H1 in H2. now inversion H2. Qed.
  Lemma light_no h c r : light h -> In (c, r) h -> ~ (~ elsewhere c /\ ~ reads_process c).
  Proof. unfold light. rewrite Forall_forall. intros Hl Hi [H1 H2]. destruct (Hl _ Hi); auto. Qed.
  Lemma create_once h2 a size r h1 a' size' r' : light h1 -> light h2 -> In (CCreateBreakpoint O a' size', r') (h2 ++ (CCreateBreakpoint O a size, r) :: h1) ->
    a' = a /\ size' = size.
  Proof.
    intros L1 L2 H. apply in_app_iff in H as [H|[H|H]].
    - exfalso. apply (light_no _ _ _ L2 H). cbn. auto.
    - inversion H; auto.
    - exfalso. apply (light_no _ _ _ L1 H). cbn. auto.
  Qed.
  Lemma watched_seen st st1 : seen st st1 -> watched E K exec st [] st1.
  Proof. intros H. eapply VSeen; [exact H|constructor]. Qed.
  Lemma watched_one st st1 c st2 st3 : seen st st1 -> debugged E K exec st1 c st2 -> seen st2 st3 -> watched E K exec st [c] st3.
  Proof. intros H1 H2 H3. eapply VSeen; [exact H1|]. eapply VCons; [exact H2|]. now apply watched_seen. Qed.

  Lemma watched_app st l st1 l' st2 : watched E K exec st l st1 -> watched E K exec st1 l' st2 -> watched E K exec st (l ++ l') st2.
  Proof. induction 1; intros V; cbn [app]; [exact V| |]; [eapply VSeen|eapply VCons]; eauto. Qed.

  Lemma break_acts t g g1 o h st w1 : g_process g = O -> breakpoint p dis eval env t g = (g1, Ret o) -> g_hist g1 = h ++ g_hist g ->
    explained E K exec (World st Stopped) h w1 -> acts g (KBreak t) st h w1.
  Proof.
    intros Hp H Hh W. apply or_ret in H as [(g2 & a & H1 & H2)|[H1 ->]].
    - pose proof (parse_state _ _ _ _ H1). subst g2. assert (reads g t a) as Ra by exact H1.
      apply bind_ret in H2 as (g2 & size & H2 & H3). apply instrSize_ret in H2 as (h1 & (G1 & L1 & P1 & _) & _).
      apply bind_ret in H3 as (g3 & g3' & H3 & H4). cbn in H3. inversion H3; subst g3 g3'. clear H3.
      assert (exists h2 r, h = h2 ++ (CCreateBreakpoint O a size, r) :: h1 /\ light h2) as (h2 & r & -> & L2).
      { rewrite P1, Hp in H4. apply bind_ret in H4 as (g3 & r & H3 & H4). unfold on_ptrace_error, gtry, ask_new, gbind, ask in H3.
        destruct (env (g_hist g2) (CCreateBreakpoint 0 a size)) as [| | | | | | |[id|]| | |x] eqn:Ea; cbn in H3; try discriminate H3.
        - inversion H3; subst. cbn in H4. inversion H4; subst. cbn in Hh. rewrite G1 in Hh.
          exists [(CLog (LNewBreakpoint id), AUnit)], (AObj (Some id)). split; [|repeat constructor]. apply (app_inv_tail (g_hist g)). rewrite <- Hh. cbn. reflexivity.
        - destruct x as [e|e]; [|discriminate]. destruct (TraceModel.is_ptrace_error e); [|discriminate]. inversion H3; subst. cbn in H4. inversion H4; subst. cbn in Hh. rewrite G1 in Hh.
          exists [], (ARaise (XErr e)). split; [|constructor]. apply (app_inv_tail (g_hist g)). rewrite <- Hh. cbn. reflexivity. }
      clear H4. apply explained_app in W as (w & W1 & W2). apply explained_cons in W1 as (w0 & W0 & Wc).
      apply (light_seen E K exec _ _ _ _ L1) in W0 as (st0 & -> & S0). apply create_inv in Wc as (_ & st2 & o2 & C & -> & ->).
      apply (light_seen E K exec _ _ _ _ L2) in W2 as (st3 & -> & S3).
      exists [Break a size], st3. split; [reflexivity|]. split; [|split].
      + apply MBreak with (r := answer_of (fun id => AObj (Some id)) o2); [exact Ra|]. apply in_app_iff. right. now left.
      + intros l' M. inversion M; subst; try discriminate.
        * match goal with H : In _ _ |- _ => destruct (create_once _ _ _ _ _ _ _ _ L1 L2 H) as [-> ->] end. reflexivity.
        * exfalso. match goal with H : forall a, ~ reads_at _ _ _ _ _ _, O : _ \/ _ \/ _ |- _ => destruct O as [O|[O|O]]; try discriminate O; injection O as ->; exact (H _ Ra) end.
      + eapply watched_one; [exact S0| |exact S3]. pose proof (DBreak E K exec st0 a size) as D. rewrite C in D. exact D.
    - pose proof (parse_state _ _ _ _ H1). subst g1. assert (h = []) as -> by (apply (app_inv_tail (g_hist g)); now rewrite <- Hh).
      assert (forall a, ~ reads g t a) as Hn by (intros a Ra; unfold reads_at in Ra; fold p in Ra; rewrite H1 in Ra; discriminate).
      apply explained_nil in W. subst. exists [], st. split; [reflexivity|]. split; [|split].
      + apply (MNoAddress _ t); [exact Hn|constructor|auto].
      + intros l' M. inversion M; subst; try reflexivity; match goal with H : In _ [] |- _ => destruct H end.
      + apply watched_seen, seen_refl.
  Qed.
  Lemma delete_acts t g g1 o h st w1 : g_process g = O -> delete p eval env t g = (g1, Ret o) -> g_hist g1 = h ++ g_hist g ->
    explained E K exec (World st Stopped) h w1 -> acts g (KDelete t) st h w1.
  Proof.
    intros Hp H Hh W. apply or_ret in H as [(g2 & a & H1 & H2)|[H1 ->]].
    - pose proof (parse_state _ _ _ _ H1). subst g2. assert (reads g t a) as Ra by exact H1.
      apply bind_ret in H2 as (g3 & g3' & H3 & H4). cbn in H3. inversion H3; subst g3 g3'. clear H3. rewrite Hp in H4.
      apply bind_ret in H4 as (g2 & ob & H3 & H4). apply obj_ret in H3. subst g2. destruct ob as [bp|].
      + apply bind_ret in H4 as (g2 & u & H3 & H4). apply unit_ret in H3. subst g2. cbn in H4. inversion H4; subst. cbn in Hh.
        assert (h = [(CLog (LDeleted bp), AUnit); (CDesinstall bp false, AUnit); (CFindBreakpoint 0 a, AObj (Some bp))]) as -> by (apply (app_inv_tail (g_hist g)); now rewrite <- Hh).
        apply explained_cons in W as (w2 & W & A3). apply explained_cons in W as (w3 & W & A2). apply explained_cons in W as (w4 & W & A1). apply explained_nil in W. subst w4.
        apply find_inv in A1 as (_ & F & ->). apply remove_inv in A2 as (_ & st2 & r & D & Er & ->). apply else_inv in A3; [|exact I]. subst w1.
        exists [Delete a], st2. split; [reflexivity|]. split; [|split].
        * apply MDelete with (r := AObj (Some bp)); [exact Ra|]. cbn. auto.
        * intros l' M. inversion M; subst; try discriminate.
          -- match goal with H : In (CFindBreakpoint _ _, _) _ |- _ => cbn in H; destruct H as [H|[H|[H|[]]]]; inversion H; subst end. reflexivity.
          -- exfalso. match goal with H : forall a, ~ reads_at _ _ _ _ _ _, O : _ \/ _ \/ _ |- _ => destruct O as [O|[O|O]]; try discriminate O; injection O as ->; exact (H _ Ra) end.
        * eapply watched_one; [apply seen_refl| |apply seen_refl]. pose proof (DDelete E K exec st a) as D'. unfold delete_breakpoint in D'.
          injection F as F. rewrite <- F, D in D'. destruct r; exact D'.
      + cbn in H4. inversion H4; subst. cbn in Hh.
        assert (h = [(CFindBreakpoint 0 a, AObj None)]) as -> by (apply (app_inv_tail (g_hist g)); now rewrite <- Hh).
        apply explained_cons in W as (w4 & W & A1). apply explained_nil in W. subst w4. apply find_inv in A1 as (_ & F & ->).
        exists [Delete a], st. split; [reflexivity|]. split; [|split].
        * apply MDelete with (r := AObj None); [exact Ra|]. cbn. auto.
        * intros l' M. inversion M; subst; try discriminate.
          -- match goal with H : In (CFindBreakpoint _ _, _) _ |- _ => cbn in H; destruct H as [H|[]]; inversion H; subst end. reflexivity.
          -- exfalso. match goal with H : forall a, ~ reads_at _ _ _ _ _ _, O : _ \/ _ \/ _ |- _ => destruct O as [O|[O|O]]; try discriminate O; injection O as ->; exact (H _ Ra) end.
        * eapply watched_one; [apply seen_refl| |apply seen_refl]. pose proof (DDelete E K exec st a) as D'. unfold delete_breakpoint in D'.
          injection F as F. rewrite <- F in D'. exact D'.
    - pose proof (parse_state _ _ _ _ H1). subst g1. assert (h = []) as -> by (apply (app_inv_tail (g_hist g)); now rewrite <- Hh).
      assert (forall a, ~ reads g t a) as Hn by (intros a Ra; unfold reads_at in Ra; fold p in Ra; rewrite H1 in Ra; discriminate).
      apply explained_nil in W. subst. exists [], st. split; [reflexivity|]. split; [|split].
      + apply (MNoAddress _ t); [exact Hn|constructor|auto].
      + intros l' M. inversion M; subst; try reflexivity; match goal with H : In _ [] |- _ => destruct H end.
      + apply watched_seen, seen_refl.
  Qed.
  (** *** step and until *)
  Lemma wait_ret bp g g1 o : g_process g = O -> step_wait env (Some bp) g = (g1, Ret o) ->
    exists ev, o = None /\ g1 = push (CDesinstall bp true) AUnit (push (CWait O SIGTRAP) (AEvent ev) g).
  Proof.
    intros Hp H. apply bind_ret in H as (g2 & g2' & H2 & H). cbn in H2. inversion H2; subst g2 g2'. clear H2. rewrite Hp in H. unfold gtry in H.
    match type of H with (match ?m g with _ => _ end) = _ => destruct (m g) as [g3 [o3|x]] eqn:Em end.
    - inversion H; subst. apply bind_ret in Em as (g4 & ev & H4 & H5). apply event_ret in H4. subst g4. apply bind_ret in H5 as (g5 & u & H5 & H6). apply unit_ret in H5. subst g5.
      cbn in H6. inversion H6; subst. exists ev. auto.
    - apply bind_ret in H as (g4 & u & _ & H5). discriminate.
  Qed.
  Lemma over_ret a g g1 o : g_process g = O -> gbind (step_break dis env a) (fun bp => step_wait env (Some bp)) g = (g1, Ret o) ->
    exists h1 size bp ev, o = None /\ light h1 /\ g_process g1 = O /\ g_last g1 = g_last g /\
      g_hist g1 = (CDesinstall bp true, AUnit) :: (CWait O SIGTRAP, AEvent ev) :: (CCont O 0, AUnit) :: (CCreateBreakpoint O a size, AObj (Some bp)) :: h1 ++ g_hist g.
  Proof.
    intros Hp H. apply bind_ret in H as (g2 & bp & H1 & H2). unfold step_break in H1. apply bind_ret in H1 as (g3 & size & H1 & H3).
    apply instrSize_ret in H1 as (h1 & (G1 & L1 & P1 & La1) & _). apply bind_ret in H3 as (g4 & g4' & H4 & H3). cbn in H4. inversion H4; subst g4 g4'. clear H4. rewrite P1, Hp in H3.
    apply bind_ret in H3 as (g4 & bp' & H4 & H5). apply new_ret in H4. subst g4. apply bind_ret in H5 as (g5 & u & H5 & H6). apply unit_ret in H5. subst g5. cbn in H6. inversion H6; subst. clear H6.
    apply wait_ret in H2 as (ev & -> & ->); [|cbn; congruence]. exists h1, size, bp, ev. cbn. rewrite G1, La1, P1, Hp. auto 8.
  Qed.
  Lemma over_watched a size bp ev h1 st m w1 : light h1 ->
    explained E K exec (World st m) ((CDesinstall bp true, AUnit) :: (CWait O SIGTRAP, AEvent ev) :: (CCont O 0, AUnit) :: (CCreateBreakpoint O a size, AObj (Some bp)) :: h1) w1 ->
    exists st1, w1 = World st1 Stopped /\ watched E K exec st [Step a size] st1.
  Proof.
    intros L W. apply explained_cons in W as (w2 & W & A4). apply explained_cons in W as (w3 & W & A3). apply explained_cons in W as (w4 & W & A2). apply explained_cons in W as (w5 & W & A1).
    apply (light_seen E K exec _ _ _ _ L) in W as (st0 & -> & S0). apply create_inv in A1 as (-> & st1 & r & C & Er & ->). destruct r as [id|e]; cbn in Er; [|discriminate]. injection Er as <-.
    apply cont_inv in A2 as (_ & ->). apply running_inv in A3 as (k & r & -> & _ & Rn); [|auto]. apply remove_inv in A4 as (_ & st2 & r2 & D & _ & ->).
    exists st2. split; [reflexivity|]. eapply watched_one; [exact S0| |apply seen_refl]. pose proof (DStep E K exec st0 a size k r) as D'. cbn zeta in D'. unfold step_over in D'. rewrite C in D'. cbn [fst] in D'.
    rewrite D in D'. exact (D' Rn).
  Qed.
  Lemma over_once a size r1 r2 r3 r4 ev bp h2 h1 a' size' r' : light h1 -> light h2 ->
    In (CCreateBreakpoint O a' size', r') (h2 ++ (CDesinstall bp true, r4) :: (ev, r3) :: (CCont O 0, r2) :: (CCreateBreakpoint O a size, r1) :: h1) -> ev = CWait O SIGTRAP -> a' = a /\ size' = size.
  Proof.
    intros L1 L2 H ->. apply in_app_iff in H as [H|[H|[H|[H|[H|H]]]]]; try discriminate H.
    - exfalso. apply (light_no _ _ _ L2 H). cbn. auto.
    - inversion H; auto.
    - exfalso. apply (light_no _ _ _ L1 H). cbn. auto.
  Qed.
  Lemma until_acts t g g1 o h st w1 : g_process g = O -> until p dis eval env t g = (g1, Ret o) -> g_hist g1 = h ++ g_hist g ->
    explained E K exec (World st Stopped) h w1 -> acts g (KUntil t) st h w1.
  Proof.
    intros Hp H Hh W. apply or_ret in H as [(g2 & a & H1 & H2)|[H1 ->]].
    - pose proof (parse_state _ _ _ _ H1). subst g2. assert (reads g t a) as Ra by exact H1.
      apply bind_ret in H2 as (g2 & m & H2 & H3). unfold step in H2. apply bind_ret in H2 as (g4 & u & H4 & H2). cbn in H4. injection H4 as <- _. cbn [negb] in H2.
      apply over_ret in H2 as (h1 & size & bp & ev & -> & L1 & P2 & _ & G2); [|exact Hp]. apply bind_ret in H3 as (g4 & u' & H4 & H3). apply displayInstr_ret in H4 as (h2 & G4 & L2 & _ & _).
      cbn in H3. inversion H3; subst. rewrite G4, G2 in Hh.
      assert (h = h2 ++ (CDesinstall bp true, AUnit) :: (CWait O SIGTRAP, AEvent ev) :: (CCont O 0, AUnit) :: (CCreateBreakpoint O a size, AObj (Some bp)) :: h1) as ->
        by (apply (app_inv_tail (g_hist g)); rewrite <- Hh, <- app_assoc; reflexivity).
      apply explained_app in W as (w & W1 & W2). apply (over_watched a size bp ev h1 st Stopped w L1) in W1 as (st2 & -> & V).
      apply (light_seen E K exec _ _ _ _ L2) in W2 as (st3 & -> & S3). exists [Step a size], st3. split; [reflexivity|]. split; [|split].
      + apply MUntil with (r := AObj (Some bp)); [exact Ra|]. apply in_app_iff. right. cbn. auto.
      + intros l' M. inversion M; subst; try discriminate.
        * match goal with H : In _ _ |- _ => destruct (over_once _ _ _ _ _ _ _ _ _ _ _ _ _ L1 L2 H eq_refl) as [-> ->] end. reflexivity.
        * exfalso. match goal with H : forall a, ~ reads_at _ _ _ _ _ _, O : _ \/ _ \/ _ |- _ => destruct O as [O|[O|O]]; try discriminate O; injection O as ->; exact (H _ Ra) end.
      + exact (watched_app _ _ _ _ _ V (watched_seen _ _ S3)).
    - pose proof (parse_state _ _ _ _ H1). subst g1. assert (h = []) as -> by (apply (app_inv_tail (g_hist g)); now rewrite <- Hh).
      assert (forall a, ~ reads g t a) as Hn by (intros a Ra; unfold reads_at in Ra; fold p in Ra; rewrite H1 in Ra; discriminate).
      apply explained_nil in W. subst. exists [], st. split; [reflexivity|]. split; [|split].
      + apply (MNoAddress _ t); [exact Hn|constructor|auto].
      + intros l' M. inversion M; subst; try reflexivity; match goal with H : In _ [] |- _ => destruct H end.
      + apply watched_seen, seen_refl.
  Qed.
End Commands.
