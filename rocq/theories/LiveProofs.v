(** * LiveProofs: the process of the debugger follows the ideal debugger, with signals. *)
From Coq Require Import ZArith List Ascii Bool Lia.
From Verif Require Import PyBase PyFacts Platform IntModel IntSpec CallModel MemModel MemSpec StructModel RegModel RegSpec RegFinal BreakModel BreakSpec BreakProofs SessionModel SessionSpec
  SessionProofs SessionProofs2 SessionProofs3 SessionProofs4 LinkSpec LinkProofs3 LiveSpec.
From Verif Require DbgModel.
Import ListNotations.
Open Scope Z_scope.

Local Notation mem st := (s_mem (b_mem st)).
Local Notation regs st := (r_regs (b_regs st)).

(** What the commands do to the process *)
Section Debugged.
  Context (E : penv) (K : rkernel) (exec : program) (G : signals).
  Inductive sdebugged : bstate -> option Z -> command -> bstate -> option Z -> list Z -> list Z -> Prop :=
  | TPlain : forall st o c st', c <> Continue \/ o = None -> debugged E K exec st c st' -> sdebugged st o c st' o [] []
  | TContinue : forall st k r s, ran (e_p E) exec (mem st) (regs st) k r -> comes G s k r -> sdebugged st None Continue (stopped_with st k r) (Some s) [] [s]
  | TStep : forall st o a size st1 id k r s st2 u, createBreakpoint E a size st = (st1, Ok id) -> ran (e_p E) exec (mem st1) (regs st1) k r -> comes G s k r ->
      desinstall E K id false (stopped_with st1 k r) = (st2, Ok u) -> sdebugged st o (Step a size) st2 (Some s) [] [s]
  | TStepi : forall st o s, comes G s (mem st) (regs st) -> sdebugged st o Stepi st (Some s) [] [s]
  | TDeliver : forall st s k r st' o' d n, delivers G s (mem st) (regs st) k r -> sdebugged (stopped_with st k r) None Continue st' o' d n ->
      sdebugged st (Some s) Continue st' o' (s :: d) n.
  Inductive overseen : bstate -> option Z -> list command -> bstate -> option Z -> list Z -> list Z -> Prop :=
  | ONil : forall st o, overseen st o [] st o [] []
  | OSeen : forall st o st1 l st2 o2 d n, seen st st1 -> overseen st1 o l st2 o2 d n -> overseen st o l st2 o2 d n
  | OCons : forall st o c st1 o1 d n l st2 o2 d' n', sdebugged st o c st1 o1 d n -> overseen st1 o1 l st2 o2 d' n' -> overseen st o (c :: l) st2 o2 (d ++ d') (n ++ n').
  Lemma overseen_app st o l st1 o1 d n l' st2 o2 d' n' : overseen st o l st1 o1 d n -> overseen st1 o1 l' st2 o2 d' n' -> overseen st o (l ++ l') st2 o2 (d ++ d') (n ++ n').
  Proof.
    induction 1 as [st o|st o st1 l st3 o3 d n S V IH|st o c st1 o1 d n l st3 o3 d1 n1 D V IH]; intros V'; cbn [app]; [exact V'|eapply OSeen; eauto|].
    rewrite <- !app_assoc. eapply OCons; eauto.
  Qed.
  Lemma watched_overseen st l st' : watched E K exec st l st' -> forall o, o = None \/ ~ In Continue l -> overseen st o l st' o [] [].
  Proof.
    induction 1 as [st|st st1 l st2 S V IH|st c st1 l st2 D V IH]; intros o Ho; [constructor|eapply OSeen; eauto|].
    change (@nil Z) with (@nil Z ++ []). eapply OCons.
    - apply TPlain; [|exact D]. destruct Ho as [Ho|Ho]; [now right|left; intros ->; apply Ho; now left].
    - apply IH. destruct Ho as [Ho|Ho]; [now left|right; intros H; apply Ho; now right].
  Qed.
End Debugged.

Section Sim.
  Context (E : penv) (K : rkernel) (exec : program) (G : signals).
  Hypothesis HE : plain E.
  Hypothesis Hi : is_intel (p_cpu (e_p E)) = true.
  Hypothesis Hnat : native (e_p E).
  Hypothesis Hget : rk_get K = None.
  Hypothesis Hset : forall r, rk_set K r = None.
  Let p := e_p E.

  Lemma ran_sound l : forall m r m' r', ran p exec m r m' r' -> forall k, beside l k m -> traps l m -> quiet E exec k r l ->
    exists k1, reaches p exec l k r k1 r' /\ beside l k1 m' /\ agree l m m' /\ agree l k k1 /\ kept p l k k1 /\ zlen r' = zlen r.
  Proof.
    intros m r m' r' C. induction C as [m r|m r m1 r1 m' r' T X C IH]; intros k B Tr Q.
    - exists k. split; [apply RHere|]. split; [exact B|]. split; [intros x _; reflexivity|]. split; [intros x _; reflexivity|]. split; [intros a0 n0 _; auto|reflexivity].
    - destruct (pc_exists p r (Hin E HE Hi Hnat)) as [v Hv]. destruct (quiet_here E exec _ _ _ _ Q Hv) as [_ Q2].
      assert (~ covered l v) as c by (intros c; apply T; exists v; split; [exact Hv|now apply Tr]).
      assert (forall v', pc p r v' -> ~ covered l v') as Hn by (intros v' Hv'; rewrite (pc_fun p r v' v Hv' Hv); exact c).
      destruct (Q2 c) as (_ & U & W). destruct (proj2 (U m B) m1 r1 X) as (k1 & Xk & B1 & A1 & A2).
      destruct (W k1 r1 Xk) as [Hz Hk1].
      destruct (IH k1 B1) as (k2 & R & B2 & A3 & A4 & K3 & Z3).
      + intros x cx. rewrite (A1 x cx). now apply Tr.
      + exact (quiet_step E exec k r l k1 r1 Q Hn Xk).
      + exists k2. split; [exact (RThere _ _ _ k r k1 r1 k2 r' Hn Xk R)|]. split; [exact B2|].
        split; [intros x cx; rewrite (A3 x cx); now apply A1|]. split; [intros x cx; rewrite (A4 x cx); now apply A2|].
        split; [|congruence]. intros a n Han. destruct (Hk1 a n Han), (K3 a n Han). auto.
  Qed.
  Lemma sim_interrupted k r l st m' r' s : sim E (Ideal k r l) st -> undisturbed E exec G k r l -> ran p exec (mem st) (regs st) m' r' -> comes G s m' r' ->
    exists k1, reaches p exec l k r k1 r' /\ comes G s k1 r' /\ sim E (Ideal k1 r' l) (stopped_with st m' r').
  Proof.
    intros S [Q H] R (C1 & C2 & C3). destruct (sim_traps E Hi _ _ S) as [Tr B]. cbn [i_breakpoints i_mem] in Tr, B. rewrite (sm_regs _ _ _ S) in R. cbn [i_regs] in R.
    destruct (ran_sound l _ _ _ _ R k B Tr Q) as (k1 & Rk & B1 & A1 & A2 & Kp & Hz). exists k1. split; [exact Rk|]. split.
    - split; [exact C1|]. split; [exact C2|]. exact (H k1 r' Rk s m' B1 C3).
    - exact (stopped_sim E (Ideal k r l) st k1 r' m' r' S B1 A1 A2 Kp Hz eq_refl).
  Qed.
  Lemma sim_delivered k r l st s m' r' : sim E (Ideal k r l) st -> smooth E (delivers G s) l k r -> delivers G s (mem st) (regs st) m' r' ->
    exists k1, delivers G s k r k1 r' /\ sim E (Ideal k1 r' l) (stopped_with st m' r').
  Proof.
    intros S [U W] D. destruct (sim_traps E Hi _ _ S) as [Tr B]. cbn [i_breakpoints i_mem] in Tr, B. rewrite (sm_regs _ _ _ S) in D. cbn [i_regs] in D.
    destruct (proj2 (U _ B) _ _ D) as (k1 & Xk & B1 & A1 & A2). destruct (W _ _ Xk) as [Hz Kp]. exists k1. split; [exact Xk|].
    exact (stopped_sim E (Ideal k r l) st k1 r' m' r' S B1 A1 A2 Kp Hz eq_refl).
  Qed.
  Lemma tame_matches i c st st' : sim E i st -> tame E exec i [c] -> debugged E K exec st c st' -> exists i', ideal E exec i c i' /\ sim E i' st'.
  Proof. intros S T D. exact (proj1 (sim_command E K exec HE Hi Hnat Hget Hset i c st [] S T) st' D). Qed.
  Lemma quiet_tame k r l : quiet E exec k r l -> tame E exec (Ideal k r l) [Continue].
  Proof. intros Q. split; [exact Q|]. intros; exact I. Qed.
  Lemma sim_continues k r l st st' o' d n : sim E (Ideal k r l) st -> undisturbed E exec G k r l -> sdebugged E K exec G st None Continue st' o' d n ->
    exists i', proceeds E exec G (Ideal k r l) None Continue i' o' d n /\ sim E i' st'.
  Proof.
    intros S U D. inversion D as [st0 o c st1 Hc D1|st0 m r0 s R C| | |]; subst.
    - destruct (tame_matches _ _ _ _ S (quiet_tame _ _ _ (proj1 U)) D1) as (i' & I' & S'). exists i'. split; [apply PPlain; auto|exact S'].
    - destruct (sim_interrupted k r l st m r0 s S U R C) as (k1 & R1 & C1 & S1). exists (Ideal k1 r0 l). split; [now apply PContinue|exact S1].
  Qed.
  Lemma create_new k r l st a size st1 id : sim E (Ideal k r l) st -> settable E k l a (break_size E size) -> ~ covered l a -> createBreakpoint E a size st = (st1, Ok id) ->
    exists bp, nth_error (b_objs st1) id = Some bp /\ live st1 bp /\ bp_address bp = a /\ bp_size bp = break_size E size /\ sim E (Ideal k r (l ++ [(a, break_size E size)])) st1.
  Proof.
    intros S Hs Hc C. destruct (create_id E exec HE k r l st a size S Hs Hc) as (st2 & id2 & bp & R & N & L & B1 & B2 & _ & S1). rewrite C in R. injection R as <- <-. eauto 8.
  Qed.
  Lemma sim_step_interrupted k r l st a size st1 id m r' s st2 u : sim E (Ideal k r l) st -> tame E exec (Ideal k r l) [Step a size] ->
    undisturbed E exec G k r (l ++ [(a, break_size E size)]) -> createBreakpoint E a size st = (st1, Ok id) -> ran p exec (mem st1) (regs st1) m r' -> comes G s m r' ->
    desinstall E K id false (stopped_with st1 m r') = (st2, Ok u) ->
    exists k1, reaches p exec (l ++ [(a, break_size E size)]) k r k1 r' /\ comes G s k1 r' /\ sim E (Ideal k1 r' l) st2.
  Proof.
    intros S T U C R Cs D. cbn [tame i_mem i_breakpoints] in T. destruct T as [T _]. destruct T as (T1 & T2 & _). destruct (create_new k r l st a size st1 id S T1 T2 C) as (bp & N & L & B1 & B2 & S1).
    destruct (sim_interrupted k r _ st1 m r' s S1 U R Cs) as (k1 & R1 & C1 & S2). exists k1. split; [exact R1|]. split; [exact C1|].
    assert (In (a, break_size E size) (l ++ [(a, break_size E size)])) as Hl by (apply in_app_iff; right; now left).
    destruct (sim_remove E K HE k1 r' _ (stopped_with st1 m r') (a, break_size E size) bp id S2 Hl N L B1 B2) as [R2 _]. rewrite D in R2. cbn [fst] in R2.
    apply (sim_list E _ _ _ _ _ (without_last l a (break_size E size) T2 (proj1 T1)) R2).
  Qed.
  Lemma sim_live i o c cs st st' o' d n : sim E i st -> orderly E exec G i o (c :: cs) -> sdebugged E K exec G st o c st' o' d n ->
    exists i', proceeds E exec G i o c i' o' d n /\ sim E i' st'.
  Proof.
    intros S T D. destruct i as [k r l]. destruct T as [T _]. destruct c as [a size|a| |a size|].
    - inversion D as [st0 o0 c st1 Hc D1| | | |]; subst. destruct (tame_matches _ _ _ _ S T D1) as (i' & I' & S'). exists i'. split; [apply PPlain; auto|exact S'].
    - inversion D as [st0 o0 c st1 Hc D1| | | |]; subst. destruct (tame_matches _ _ _ _ S T D1) as (i' & I' & S'). exists i'. split; [apply PPlain; auto|exact S'].
    - destruct o as [s|]; [|exact (sim_continues _ _ _ _ _ _ _ _ S T D)]. destruct T as [T1 T2]. inversion D as [st0 o0 c st1 Hc D1| | | |st0 s0 m r0 st1 o1 d1 n1 Dl D1]; subst.
      + destruct Hc as [Hc|Hc]; [contradiction Hc; reflexivity|discriminate].
      + destruct (sim_delivered _ _ _ _ _ _ _ S T1 Dl) as (k1 & X & S1). destruct (sim_continues _ _ _ _ _ _ _ _ S1 (T2 _ _ X) D1) as (i' & I' & S'). exists i'. split; [|exact S'].
        eapply PDeliver; eassumption.
    - destruct T as (-> & T1 & T2). inversion D as [st0 o0 c st1 Hc D1| |st0 o0 a0 size0 st1 id m r0 s st2 u C R Cs Dd| |]; subst.
      + destruct (tame_matches _ _ _ _ S T1 D1) as (i' & I' & S'). exists i'. split; [apply PPlain; auto|exact S'].
      + destruct (sim_step_interrupted _ _ _ _ _ _ _ _ _ _ _ _ _ S T1 T2 C R Cs Dd) as (k1 & R1 & C1 & S1). exists (Ideal k1 r0 l). split; [eapply PStep; eassumption|exact S1].
    - destruct T as (-> & T1 & T2). inversion D as [st0 o0 c st1 Hc D1| | |st0 o0 s (C1 & C2 & C3)|]; subst.
      + destruct (tame_matches _ _ _ _ S T1 D1) as (i' & I' & S'). exists i'. split; [apply PPlain; auto|exact S'].
      + exists (Ideal k r l). split; [|exact S]. apply PStepi. split; [exact C1|]. split; [exact C2|]. destruct (sim_traps E Hi _ _ S) as [_ B]. cbn in B.
        rewrite (sm_regs _ _ _ S) in C3. exact (T2 s _ B C3).
  Qed.
  Lemma sim_session st o l st' o' d n : overseen E K exec G st o l st' o' d n -> forall i, sim E i st -> orderly E exec G i o l ->
    exists i', proceed E exec G i o l i' o' d n /\ sim E i' st'.
  Proof.
    induction 1 as [st o|st o st1 l st3 o3 d n V1 V IH|st o c st1 o1 d n l st3 o3 d1 n1 D V IH]; intros i S T.
    - exists i. split; [constructor|exact S].
    - apply IH; [exact (sim_seen E i st st1 V1 S)|exact T].
    - destruct (sim_live _ _ _ _ _ _ _ _ _ S T D) as (i1 & I1 & S1). destruct i as [k r bps]. destruct T as [_ T]. destruct (IH i1 S1) as (i2 & I2 & S2); [eapply T; exact I1|].
      exists i2. split; [|exact S2]. eapply PCons; eassumption.
  Qed.
End Sim.

(** The ideal debugger and the program without debugger *)
Section Lives.
  Context (E : penv) (exec : program) (G : signals).
  Lemma lives_app k r d k1 r1 d' k2 r2 : lives exec G k r d k1 r1 -> lives exec G k1 r1 d' k2 r2 -> lives exec G k r (d ++ d') k2 r2.
  Proof. induction 1 as [| |]; intros L; cbn [app]; [exact L|eapply LInstr; eauto|eapply LSignal; eauto]. Qed.
  Lemma reaches_lives p l k r k1 r1 : reaches p exec l k r k1 r1 -> lives exec G k r [] k1 r1.
  Proof. induction 1; [constructor|eapply LInstr; eauto]. Qed.
  Definition due (o : option Z) (i : ideal_state) : Prop := forall s, o = Some s -> comes G s (i_mem i) (i_regs i).
  Lemma proceeds_lives i o c i' o' d n cs : proceeds E exec G i o c i' o' d n -> orderly E exec G i o (c :: cs) -> due o i ->
    lives exec G (i_mem i) (i_regs i) d (i_mem i') (i_regs i') /\ due o' i'.
  Proof.
    intros P T Hd.
    assert (forall k r l i' o' d n, proceeds E exec G (Ideal k r l) None Continue i' o' d n -> lives exec G k r d (i_mem i') (i_regs i') /\ due o' i') as Hc.
    { intros k r l j oj dj nj H. inversion H as [i0 o0 c0 i1 _ I1|k0 r0 l0 k1 r1 s R C| | |]; subst.
      - split; [|discriminate]. inversion I1; subst. cbn. eapply reaches_lives. eassumption.
      - cbn. split; [eapply reaches_lives; exact R|]. intros s' [= <-]. exact C. }
    destruct P as [i o c i' Ho I1|k r l k1 r1 s R C|k r l a size k1 r1 s R C|k r l s C|k r l s k1 r1 i' o' d n D P]; cbn [i_mem i_regs] in *.
    - destruct i as [k r l]. cbn [i_mem i_regs]. inversion I1; subst; cbn [i_mem i_regs]; try (split; [constructor|exact Hd]).
      + destruct Ho as [Ho| ->]; [contradiction Ho; reflexivity|]. split; [eapply reaches_lives; eassumption|discriminate].
      + destruct T as [(-> & _) _]. split; [eapply reaches_lives; eassumption|discriminate].
      + destruct T as [(-> & _) _]. split; [eapply LInstr; [eassumption|constructor]|discriminate].
    - split; [eapply reaches_lives; exact R|]. intros s' [= <-]. exact C.
    - split; [eapply reaches_lives; exact R|]. intros s' [= <-]. exact C.
    - split; [constructor|]. intros s' [= <-]. exact C.
    - destruct (Hc _ _ _ _ _ _ _ P) as [L H]. split; [|exact H]. eapply LSignal; [exact (Hd s eq_refl)|exact D|exact L].
  Qed.
  Lemma proceeds_signals i o c i' o' d n : proceeds E exec G i o c i' o' d n -> pending o ++ n = d ++ pending o'.
  Proof. induction 1; cbn [pending app]; try reflexivity; [apply app_nil_r|]. cbn [pending app] in *. congruence. Qed.
  Lemma proceed_lives i o l i' o' d n : proceed E exec G i o l i' o' d n -> orderly E exec G i o l -> due o i ->
    lives exec G (i_mem i) (i_regs i) d (i_mem i') (i_regs i') /\ due o' i' /\ pending o ++ n = d ++ pending o'.
  Proof.
    induction 1 as [i o|i o c i1 o1 d n l i2 o2 d' n' P _ IH]; intros T Hd.
    - split; [constructor|]. split; [exact Hd|]. apply app_nil_r.
    - destruct (proceeds_lives _ _ _ _ _ _ _ _ P T Hd) as [L1 H1]. pose proof (proceeds_signals _ _ _ _ _ _ _ P) as Q1. destruct i as [k r bps]. destruct T as [_ T].
      destruct (IH (T _ _ _ _ P) H1) as (L2 & H2 & Q2). split; [eapply lives_app; eassumption|]. split; [exact H2|]. rewrite app_assoc, Q1, <- !app_assoc, Q2. reflexivity.
  Qed.
End Lives.
