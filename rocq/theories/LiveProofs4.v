(** * LiveProofs4: steps that a signal interrupts; sessions. *)
From Coq Require Import ZArith List Ascii Bool Lia.
From Verif Require Import PyBase Platform CallModel MemModel MemSpec StructModel RegModel RegSpec RegProofs BreakModel BreakSpec BreakProofs SessionModel SessionSpec SessionProofs2 SessionProofs4 LinkSpec.
From Verif Require TraceModel.
From Verif Require Import SigModel DbgModel GdbModel GdbProofs2 EffectSpec EffectProofs EffectProofs2 LinkProofs LinkProofs2 LinkProofs3 LiveSpec LiveProofs LiveProofs2 LiveProofs3.
Import ListNotations.
Open Scope Z_scope.

Lemma lawful_wait k h c a : plain_command k -> lawful O k h -> In (c, a) h -> c = CWait O SIGTRAP -> is_step k \/ k = KStepi.
Proof.
  intros Hk L Hi ->. induction h as [|[c' a'] h IH]; [destruct Hi|]. destruct L as [M L]. destruct Hi as [[= -> ->]|Hi]; [|now apply IH].
  inversion M; subst; auto. match goal with H : looks _ _ |- _ => contradiction H end.
Qed.
Section Event.
  Context (p : platform) (dis : bool) (eval : text -> res PyEval.pyval) (env : history -> gcall -> ans).
  (** The event came from a call that does not wait. *)
  Definition strange (g g1 : gstate) (ev : event) : Prop := exists c h, g_hist g1 = h ++ g_hist g /\ In (c, ARaise (XEvent ev)) h /\ c <> CWait O SIGTRAP.
  Lemma strange_after h g g2 g1 ev : g_hist g2 = h ++ g_hist g -> strange g2 g1 ev -> strange g g1 ev.
  Proof. intros H (c & h1 & H1 & H2 & H3). exists c, (h1 ++ h). split; [rewrite H1, H, app_assoc; reflexivity|]. split; [apply in_app_iff; now left|exact H3]. Qed.
  Lemma strange_here g c ev : c <> CWait O SIGTRAP -> strange g (push c (ARaise (XEvent ev)) g) ev.
  Proof. intros H. exists c, [(c, ARaise (XEvent ev))]. split; [reflexivity|]. split; [now left|exact H]. Qed.
  Lemma bind_event {A B} (m : GM A) (f : A -> GM B) g g' x : gbind m f g = (g', Raise x) -> m g = (g', Raise x) \/ exists g1 a, m g = (g1, Ret a) /\ f a g1 = (g', Raise x).
  Proof. unfold gbind. destruct (m g) as [g1 [a|y]]; [eauto|]. intros [= <- <-]. now left. Qed.
  Lemma ask_event_raise c g g' ev : ask env c g = (g', Raise (XEvent ev)) -> g' = push c (ARaise (XEvent ev)) g.
  Proof. unfold ask. destruct (env (g_hist g) c); intros H; inversion H; subst; reflexivity. Qed.
  Ltac asked := intros H; apply bind_event in H as [H|(g1 & a & _ & H)]; [now apply ask_event_raise in H|destruct a; try discriminate H].
  Lemma unit_event c g g' ev : ask_unit env c g = (g', Raise (XEvent ev)) -> g' = push c (ARaise (XEvent ev)) g.
  Proof. asked. Qed.
  Lemma int_event c g g' ev : ask_int env c g = (g', Raise (XEvent ev)) -> g' = push c (ARaise (XEvent ev)) g.
  Proof. asked. Qed.
  Lemma new_event c g g' ev : ask_new env c g = (g', Raise (XEvent ev)) -> g' = push c (ARaise (XEvent ev)) g.
  Proof. intros H; apply bind_event in H as [H|(g1 & a & _ & H)]; [now apply ask_event_raise in H|destruct a as [| | | | | | |[?|]| | |]; discriminate H]. Qed.
  Lemma event_event c g g' ev : ask_event env c g = (g', Raise (XEvent ev)) -> g' = push c (ARaise (XEvent ev)) g.
  Proof. asked. Qed.
  Lemma display_event t g g' ev : displayInstr dis env t g = (g', Raise (XEvent ev)) -> strange g g' ev.
  Proof.
    unfold displayInstr. intros H. apply bind_event in H as [H|(g1 & a & H1 & H)]; [discriminate H|]. cbn in H1. inversion H1; subst. clear H1.
    unfold on_ptrace_error, gtry in H. destruct dis.
    - unfold ask_int, gbind, ask in H. destruct (env (g_hist a) (CDisassemble (g_process a))) eqn:Ea; cbn in H; try discriminate H.
      destruct x as [e|e]; [destruct (TraceModel.is_ptrace_error e); discriminate H|]. inversion H; subst. now apply strange_here.
    - unfold ask_unit, gbind, ask in H. destruct (env (g_hist a) (CDumpCode (g_process a) None None false)) eqn:Ea; cbn in H; try discriminate H.
      destruct x as [e|e]; [destruct (TraceModel.is_ptrace_error e); discriminate H|]. inversion H; subst. now apply strange_here.
  Qed.
  Lemma size_event a g g' ev : readInstrSize dis env a g = (g', Raise (XEvent ev)) -> strange g g' ev.
  Proof.
    unfold readInstrSize. destruct dis; cbn [negb]; [|discriminate]. intros H. apply bind_event in H as [H|(g1 & b & H1 & H)]; [discriminate H|]. cbn in H1. inversion H1; subst. clear H1.
    unfold on_ptrace_error, gtry, ask_int, gbind, ask in H. destruct (env (g_hist b) (CInstrSize (g_process b) a)) eqn:Ea; cbn in H; try discriminate H.
    destruct x as [e|e]; [destruct (TraceModel.is_ptrace_error e); discriminate H|]. inversion H; subst. now apply strange_here.
  Qed.
  Lemma wait_event bp g g1 ev : g_process g = O -> step_wait env (Some bp) g = (g1, Raise (XEvent ev)) ->
    g1 = push (CDesinstall bp false) AUnit (push (CWait O SIGTRAP) (ARaise (XEvent ev)) g) \/ strange g g1 ev.
  Proof.
    intros Hp H. apply bind_event in H as [H|(g2 & g2' & H2 & H)]; [discriminate H|]. cbn in H2. inversion H2; subst g2 g2'. clear H2. rewrite Hp in H. unfold gtry in H.
    match type of H with (match ?m g with _ => _ end) = _ => destruct (m g) as [g3 [o3|x]] eqn:Em end; [discriminate H|].
    assert (exists h, g_hist g3 = h ++ g_hist g) as (h3 & G3).
    { apply bind_event in Em as [Em|(g4 & e4 & H4 & Em)].
      - unfold ask_event, gbind, ask in Em. destruct (env (g_hist g) (CWait 0 SIGTRAP)); cbn in Em; inversion Em; subst; eexists [_]; reflexivity.
      - apply event_ret in H4. subst g4. apply bind_event in Em as [Em|(g5 & u5 & _ & Em)]; [|discriminate Em].
        unfold ask_unit, gbind, ask in Em. destruct (env _ (CDesinstall bp true)); cbn in Em; inversion Em; subst; eexists [_; _]; reflexivity. }
    apply bind_event in H as [H|(g4 & u & H4 & H)].
    - apply unit_event in H. subst g1. right. apply (strange_after h3 g g3); [exact G3|]. now apply strange_here.
    - apply unit_ret in H4. subst g4. cbn in H. injection H as <- ->. apply bind_event in Em as [Em|(g4 & e4 & H4 & Em)].
      + apply event_event in Em. subst g3. now left.
      + apply event_ret in H4. subst g4. apply bind_event in Em as [Em|(g5 & u5 & _ & Em)]; [|discriminate Em]. apply unit_event in Em. subst g3. right.
        exists (CDesinstall bp true). eexists [_; _; _]. split; [reflexivity|]. split; [right; now left|discriminate].
  Qed.
  Lemma over_event a g g1 ev : g_process g = O -> gbind (step_break dis env a) (fun bp => step_wait env (Some bp)) g = (g1, Raise (XEvent ev)) ->
    (exists h1 size bp, light h1 /\ g_process g1 = O /\ g_last g1 = g_last g /\
      g_hist g1 = (CDesinstall bp false, AUnit) :: (CWait O SIGTRAP, ARaise (XEvent ev)) :: (CCont O 0, AUnit) :: (CCreateBreakpoint O a size, AObj (Some bp)) :: h1 ++ g_hist g) \/ strange g g1 ev.
  Proof.
    intros Hp H. apply bind_event in H as [H|(g2 & bp & H1 & H2)].
    - right. unfold step_break in H. apply bind_event in H as [H|(g3 & size & H1 & H3)]; [now apply size_event in H|].
      apply instrSize_ret in H1 as (h1 & (G1 & _ & _ & _) & _). apply (strange_after h1 g g3); [exact G1|]. apply bind_event in H3 as [H|(g4 & g4' & H4 & H3)]; [discriminate H|].
      cbn in H4. inversion H4; subst g4 g4'. clear H4. apply bind_event in H3 as [H|(g4 & bp' & H4 & H5)]; [apply new_event in H; subst; now apply strange_here|].
      apply new_ret in H4. subst g4. apply bind_event in H5 as [H|(g5 & u & _ & H6)]; [|discriminate H6]. apply unit_event in H. subst g1.
      eexists _, [_; _]. split; [reflexivity|]. split; [now left|discriminate].
    - unfold step_break in H1. apply bind_ret in H1 as (g3 & size & H1 & H3).
      apply instrSize_ret in H1 as (h1 & (G1 & L1 & P1 & La1) & _). apply bind_ret in H3 as (g4 & g4' & H4 & H3). cbn in H4. inversion H4; subst g4 g4'. clear H4. rewrite P1, Hp in H3.
      apply bind_ret in H3 as (g4 & bp' & H4 & H5). apply new_ret in H4. subst g4. apply bind_ret in H5 as (g5 & u & H5 & H6). apply unit_ret in H5. subst g5. cbn in H6. inversion H6; subst. clear H6.
      apply wait_event in H2 as [->|H2]; [| |cbn; congruence].
      + left. exists h1, size, bp. cbn. rewrite G1, La1, P1, Hp. auto 8.
      + right. refine (strange_after ((CCont O 0, AUnit) :: (CCreateBreakpoint O a size, AObj (Some bp)) :: h1) g _ _ _ _ H2). cbn. now rewrite G1.
  Qed.
End Event.

Section Commands.
  Context (E : penv) (K : rkernel) (exec : program) (G : signals).
  Context (ns : SigModel.namespace) (dis : bool) (eval : text -> res PyEval.pyval) (env : history -> gcall -> ans).
  Let p := e_p E.
  Local Notation reads g := (reads_at E eval env g).
  Local Notation explained_s := (explained_s E K exec G).
  Local Notation acts_s := (acts_s E K exec G eval env).
  Local Notation runs k := (GdbModel.run p ns dis eval env k).

  (** *** Commands that are not interrupted *)
  Lemma means_no_continue r k h l : means r k h l -> k <> KCont -> ~ In Continue l.
  Proof. intros M Hk Hi. destruct M; cbn in Hi; try contradiction; try congruence; destruct Hi as [Hi|[]]; discriminate Hi. Qed.
  Lemma other_acts g k g1 u h st w1 : g_process g = O -> plain_command k -> k <> KCont -> runs k g = (g1, Ret u) -> g_hist g1 = h ++ g_hist g ->
    explained E K exec (World st Stopped) h w1 -> acts E K exec eval env g k st h w1 /\ g_process g1 = O /\ g_last g1 = g_last g.
  Proof.
    intros Hp Hk Nc H Hh W. pose proof (run_state p ns dis eval env k g g1 _ H) as (S1 & S2 & _).
    assert (acts E K exec eval env g k st h w1) as A.
    { destruct k; cbn in Hk; try discriminate Hk; try contradiction Hk; try congruence; try (now apply (look_acts E K exec ns dis eval env g _ g1 (Ret u) h st w1)).
      - exact (step_acts E K exec dis eval env g g1 u h st w1 Hp H Hh W).
      - exact (stepi_acts E K exec dis eval env g g1 u h st w1 Hp H Hh W).
      - exact (until_acts E K exec dis eval env t g g1 u h st w1 Hp H Hh W).
      - exact (break_acts E K exec dis eval env t g g1 u h st w1 Hp H Hh W).
      - exact (delete_acts E K exec eval env t g g1 u h st w1 Hp H Hh W). }
    split; [exact A|]. rewrite S1, S2; [auto|destruct k; try reflexivity; try contradiction; try congruence; discriminate Hk|destruct k; try reflexivity; try contradiction; try congruence; discriminate Hk].
  Qed.
  Lemma light_tr h : light h -> Forall tranquil h.
  Proof. exact (light_tranquil h). Qed.
  Ltac tranq := repeat first [apply Forall_nil|apply Forall_cons; [exact I || reflexivity|]|apply Forall_app; split|apply light_tr; assumption].
  Lemma step_tranquil g g1 u h : g_process g = O -> step p dis env false None g = (g1, Ret u) -> g_hist g1 = h ++ g_hist g -> Forall tranquil h.
  Proof.
    intros Hp H Hh. unfold step in H. apply bind_ret in H as (g2 & u' & H1 & H). apply displayInstr_ret in H1 as (h1 & G1 & L1 & P1 & _).
    cbn [negb] in H. apply bind_ret in H as (g3 & g3' & H3 & H). cbn in H3. inversion H3; subst g3 g3'. clear H3. rewrite P1, Hp in H.
    apply bind_ret in H as (g3 & ip & H3 & H). apply int_ret in H3. subst g3. apply bind_ret in H as (g4 & size & H4 & H). apply instrSize_ret in H4 as (h2 & (G4 & L2 & P4 & _) & N).
    assert (g_process g4 = O) as P5 by (rewrite P4; cbn; congruence).
    assert (g_hist g4 = (h2 ++ (CGetIP O, AInt ip) :: h1) ++ g_hist g) as G5 by (rewrite G4; cbn; rewrite G1, <- app_assoc; reflexivity).
    assert ((exists m, g1 = g4 /\ u = Some m) \/ exists n, size = Some n /\ gbind (step_break dis env (ip + n)) (fun bp => step_wait env (Some bp)) g4 = (g1, Ret u)) as [(m & -> & ->)|(n & Hs & H5)].
    { destruct size as [n|]; [destruct (n =? 0)|]; cbn in H; [inversion H; eauto|eauto|inversion H; eauto]. }
    - assert (h = h2 ++ (CGetIP O, AInt ip) :: h1) as -> by (apply (app_inv_tail (g_hist g)); congruence). tranq.
    - apply over_ret in H5 as (h3 & size3 & bp & ev & _ & L3 & P3 & _ & G3); [|exact P5].
      assert (h = ((CDesinstall bp true, AUnit) :: (CWait O SIGTRAP, AEvent ev) :: (CCont O 0, AUnit) :: (CCreateBreakpoint O (ip + n) size3, AObj (Some bp)) :: h3) ++ (h2 ++ (CGetIP O, AInt ip) :: h1)) as ->.
      { apply (app_inv_tail (g_hist g)). rewrite <- Hh, G3, G5. cbn [app]. rewrite !app_assoc. reflexivity. }
      tranq.
  Qed.
  Lemma stepi_tranquil g g1 u h : g_process g = O -> step p dis env true None g = (g1, Ret u) -> g_hist g1 = h ++ g_hist g -> Forall tranquil h.
  Proof.
    intros Hp H Hh. unfold step in H. apply bind_ret in H as (g2 & u' & H1 & H). apply displayInstr_ret in H1 as (h1 & G1 & L1 & P1 & _).
    cbn [negb] in H. apply bind_ret in H as (g3 & g3' & H3 & H). cbn in H3. inversion H3; subst g3 g3'. clear H3. rewrite P1, Hp in H.
    apply bind_ret in H as (g3 & u2 & H3 & H). apply unit_ret in H3. subst g3.
    apply bind_ret in H as (g3 & g3' & H3 & H). cbn in H3. inversion H3; subst g3 g3'. clear H3. cbn [g_process push] in H. rewrite P1, Hp in H. unfold gtry in H.
    match type of H with (match ?m ?g with _ => _ end) = _ => destruct (m g) as [g3 [o3|x]] eqn:Em end; [|discriminate H]. inversion H; subst g3 o3. clear H.
    apply bind_ret in Em as (g3 & ev & H3 & H). apply event_ret in H3. subst g3. cbn in H. inversion H; subst. cbn in Hh. rewrite G1 in Hh.
    assert (h = (CWait O SIGTRAP, AEvent ev) :: (CStep O, AUnit) :: h1) as -> by (apply (app_inv_tail (g_hist g)); now rewrite <- Hh). tranq.
  Qed.
  Lemma until_tranquil t g g1 u h : g_process g = O -> until p dis eval env t g = (g1, Ret u) -> g_hist g1 = h ++ g_hist g -> Forall tranquil h.
  Proof.
    intros Hp H Hh. apply or_ret in H as [(g2 & a & H1 & H2)|[H1 ->]].
    - pose proof (parse_state E eval env _ _ _ _ H1). subst g2.
      apply bind_ret in H2 as (g2 & m & H2 & H3). unfold step in H2. apply bind_ret in H2 as (g4 & u' & H4 & H2). cbn in H4. injection H4 as <- _. cbn [negb] in H2.
      apply over_ret in H2 as (h1 & size & bp & ev & -> & L1 & P2 & _ & G2); [|exact Hp]. apply bind_ret in H3 as (g4 & u2 & H4 & H3). apply displayInstr_ret in H4 as (h2 & G4 & L2 & _ & _).
      cbn in H3. inversion H3; subst. rewrite G4, G2 in Hh.
      assert (h = h2 ++ (CDesinstall bp true, AUnit) :: (CWait O SIGTRAP, AEvent ev) :: (CCont O 0, AUnit) :: (CCreateBreakpoint O a size, AObj (Some bp)) :: h1) as ->
        by (apply (app_inv_tail (g_hist g)); rewrite <- Hh, <- app_assoc; reflexivity). tranq.
    - pose proof (parse_state E eval env _ _ _ _ H1). subst g1. assert (h = []) as -> by (apply (app_inv_tail (g_hist g)); now rewrite <- Hh). constructor.
  Qed.
  Lemma run_tranquil k g g1 u h : g_process g = O -> plain_command k -> k <> KCont -> runs k g = (g1, Ret u) -> g_hist g1 = h ++ g_hist g -> Forall tranquil h.
  Proof.
    intros Hp Hk Nc H Hh. assert (is_step k \/ k = KStepi \/ (~ is_step k /\ k <> KStepi)) as [S|[->|[S1 S2]]] by (destruct k; cbn; auto; right; right; split; auto; discriminate).
    - destruct k; try contradiction S; [exact (step_tranquil g g1 u h Hp H Hh)|exact (until_tranquil _ g g1 u h Hp H Hh)].
    - exact (stepi_tranquil g g1 u h Hp H Hh).
    - destruct (run_lawful p ns dis eval env k g) as (h' & H1 & L). rewrite H in H1. cbn in H1. rewrite H1 in Hh. apply app_inv_tail in Hh. subst h'. rewrite Hp in L. now apply (lawful_tranquil k).
  Qed.
  Lemma returns_acts k g g1 o u h st w1 : g_process g = O -> g_last g = last_signal o -> o <> Some 0 -> plain_command k -> runs k g = (g1, Ret u) -> g_hist g1 = h ++ g_hist g ->
    explained_s (World st Stopped) h w1 -> acts_s g o k st h w1 g1.
  Proof.
    intros Hp Hl Ho Hk H Hh W. assert (k = KCont \/ k <> KCont) as [->|Nc] by (destruct k; (now left) || (right; discriminate)).
    - exact (cont_acts_s E K exec G eval env g g1 o h st w1 Hp Hl Ho u H Hh W).
    - pose proof (run_tranquil k g g1 u h Hp Hk Nc H Hh) as T. destruct (other_acts g k g1 u h st w1 Hp Hk Nc H Hh (es_plain _ _ _ _ _ _ _ T W)) as ((l & st1 & -> & M & U & V) & P1 & L1).
      destruct (tranquil_signals h T) as [R D]. exists l, st1, o, [], []. split; [reflexivity|]. split; [exact M|]. split; [exact U|]. split.
      + apply (watched_overseen E K exec G); [exact V|]. right. exact (means_no_continue _ _ _ _ M Nc).
      + split; [exact P1|]. split; [congruence|]. auto.
  Qed.
End Commands.
