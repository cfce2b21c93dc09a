(** * FateProofs: the debugged process ends as without the debugger. *)
From Coq Require Import ZArith List Ascii Bool Lia.
From Verif Require Import PyBase Platform CallModel MemModel MemSpec StructModel RegModel RegSpec RegProofs BreakModel BreakSpec BreakProofs SessionModel SessionSpec SessionProofs SessionProofs2 SessionProofs3 SessionProofs4 LinkSpec.
From Verif Require TraceModel.
From Verif Require Import SigModel DbgModel GdbModel GdbProofs2 EffectSpec EffectProofs EffectProofs2 LinkProofs LinkProofs2 LinkProofs3 LiveSpec LiveProofs LiveProofs2 LiveProofs3 LiveProofs4 LiveProofs5 FateSpec.
Import ListNotations.
Open Scope Z_scope.

Local Notation mem st := (s_mem (b_mem st)).
Local Notation regs st := (r_regs (b_regs st)).

(** ** The process *)
Section Perishes.
  Context (E : penv) (K : rkernel) (exec : program) (G : signals) (F : fates).
  Inductive perishes : bstate -> option Z -> SessionSpec.command -> how -> list Z -> Prop :=
  | RContinue : forall st k r e, ran (e_p E) exec (mem st) (regs st) k r -> exits F k r e -> perishes st None Continue e []
  | RDeliver : forall st s k r k1 r1 e, delivers G s (mem st) (regs st) k r -> ran (e_p E) exec k r k1 r1 -> exits F k1 r1 e -> perishes st (Some s) Continue e [s]
  | RKill : forall st s, kills F s (mem st) (regs st) -> perishes st (Some s) Continue (Killed s) [s]
  | RStep : forall st o a size st1 id k r e, createBreakpoint E a size st = (st1, Ok id) -> ran (e_p E) exec (mem st1) (regs st1) k r -> exits F k r e -> perishes st o (Step a size) e []
  | RStepi : forall st o e, exits F (mem st) (regs st) e -> perishes st o Stepi e [].

  Hypothesis HE : plain E.
  Hypothesis Hi : is_intel (p_cpu (e_p E)) = true.
  Hypothesis Hnat : native (e_p E).
  Hypothesis Hget : rk_get K = None.
  Hypothesis Hset : forall r, rk_set K r = None.
  Lemma sim_exit k r l st m' r' e : sim E (Ideal k r l) st -> quiet E exec k r l -> (forall k1 r1, reaches (e_p E) exec l k r k1 r1 -> fated F l k1 r1) ->
    ran (e_p E) exec (mem st) (regs st) m' r' -> exits F m' r' e -> exists k1, reaches (e_p E) exec l k r k1 r' /\ exits F k1 r' e.
  Proof.
    intros S Q Hf R X. destruct (sim_traps E Hi _ _ S) as [Tr B]. cbn [i_breakpoints i_mem] in Tr, B. rewrite (sm_regs _ _ _ S) in R. cbn [i_regs] in R.
    destruct (ran_sound E exec HE Hi Hnat l _ _ _ _ R k B Tr Q) as (k1 & Rk & B1 & _). exists k1. split; [exact Rk|]. exact (Hf k1 r' Rk e m' B1 X).
  Qed.
  Lemma sim_perishes k r l st o c e d : sim E (Ideal k r l) st -> orderly E exec G (Ideal k r l) o [c] -> finale E exec G F (Ideal k r l) o c -> due G o (Ideal k r l) ->
    perishes st o c e d -> finishes exec G F k r d e /\ d = pending o.
  Proof.
    intros S T Hf Hd P. destruct T as [T _]. destruct P as [st m r' e R X|st s m r' m1 r1 e D R X|st s X|st o a size st1 id m r' e C R X|st o e X]; cbn [finale] in Hf.
    - destruct (sim_exit k r l st m r' e S (proj1 T) Hf R X) as (k1 & R1 & X1). split; [|reflexivity]. eapply FExit; [eapply reaches_lives; exact R1|exact X1].
    - destruct T as [T1 T2]. destruct Hf as [_ Hf]. destruct (sim_delivered E G Hi k r l st s m r' S T1 D) as (k1 & D1 & S1).
      destruct (sim_exit k1 r' l _ m1 r1 e S1 (proj1 (T2 _ _ D1)) (Hf _ _ D1) R X) as (k2 & R2 & X2). split; [|reflexivity].
      eapply FExit; [|exact X2]. eapply LSignal; [exact (Hd s eq_refl)|exact D1|eapply reaches_lives; exact R2].
    - destruct Hf as [Hf _]. destruct (sim_traps E Hi _ _ S) as [_ B]. cbn in B. rewrite (sm_regs _ _ _ S) in X. split; [|reflexivity].
      apply (FSignal exec G F k r [] k r s); [constructor|exact (Hd s eq_refl)|exact (Hf _ B X)].
    - destruct T as (-> & T1 & T2). cbn [tame i_mem i_breakpoints] in T1. destruct T1 as [T1 _]. destruct T1 as (T1 & T3 & _).
      destruct (create_new E exec HE k r l st a size st1 id S T1 T3 C) as (bp & _ & _ & _ & _ & S1).
      destruct (sim_exit k r _ st1 m r' e S1 (proj1 T2) Hf R X) as (k1 & R1 & X1). split; [|reflexivity]. eapply FExit; [eapply reaches_lives; exact R1|exact X1].
    - destruct T as (-> & _ & _). destruct (sim_traps E Hi _ _ S) as [_ B]. cbn in B. rewrite (sm_regs _ _ _ S) in X. split; [|reflexivity].
      eapply FExit; [constructor|exact (Hf _ _ B X)].
  Qed.
End Perishes.

(** ** Histories *)
Section World.
  Context (E : penv) (K : rkernel) (exec : program) (G : signals) (F : fates).
  Local Notation answered_f := (answered_f E K exec G F).
  Local Notation explained_f := (explained_f E K exec G F).
  Lemma ef_app h2 : forall h1 w w2, explained_f w (h2 ++ h1) w2 -> exists w1, explained_f w h1 w1 /\ explained_f w1 h2 w2.
  Proof.
    induction h2 as [|[c a] h2 IH]; intros h1 w w2 H; cbn [app] in H.
    - exists w2. split; [exact H|constructor].
    - inversion H; subst. match goal with H : FateSpec.explained_f _ _ _ _ _ w (h2 ++ h1) _ |- _ => apply IH in H as (w3 & H3 & H4) end. exists w3. split; [exact H3|]. econstructor; eassumption.
  Qed.
  Lemma ef_cons h c a w w2 : explained_f w ((c, a) :: h) w2 -> exists w1, explained_f w h w1 /\ answered_f w1 c a w2.
  Proof. intros H. inversion H; subst. eauto. Qed.
  Lemma ef_nil w w2 : explained_f w [] w2 -> w2 = w.
  Proof. intros H. inversion H; subst. reflexivity. Qed.
  Lemma af_event w c a w' ev : answered_f w c a w' -> a = ARaise (XEvent ev) -> waits c.
  Proof.
    intros H ->. inversion H; subst; try assumption; try (match goal with H : forall ev, _ <> _ |- _ => exfalso; eapply H; reflexivity end).
    right. match goal with H : answered_s _ _ _ _ _ _ _ _ |- _ => exact (proj1 (as_event _ _ _ _ _ _ _ _ _ H eq_refl)) end.
  Qed.
  Lemma ef_event h : forall w w' c ev, explained_f w h w' -> In (c, ARaise (XEvent ev)) h -> waits c.
  Proof.
    induction h as [|[c a] h IH]; intros w w' c' ev H Hi; [destruct Hi|]. apply ef_cons in H as (w1 & H1 & A). destruct Hi as [[= -> ->]|Hi]; [exact (af_event _ _ _ _ _ A eq_refl)|exact (IH _ _ _ _ H1 Hi)].
  Qed.
  Lemma af_plain w c a w' : tranquil (c, a) -> answered_f (Alive w) c a w' -> exists w1, w' = Alive w1 /\ answered E K exec w c a w1.
  Proof.
    intros T H. inversion H; subst; cbn in T; try contradiction; try congruence.
    - eexists. split; [reflexivity|]. eapply as_plain; eassumption.
    - match goal with H : waits _ |- _ => destruct H as [->| ->]; contradiction end.
    - match goal with H : waits _ |- _ => destruct H as [->| ->]; contradiction end.
  Qed.
  Lemma ef_plain h : forall w w', Forall tranquil h -> explained_f (Alive w) h w' -> exists w1, w' = Alive w1 /\ explained E K exec w h w1.
  Proof.
    induction h as [|[c a] h IH]; intros w w' T H.
    - apply ef_nil in H. subst. eexists. split; [reflexivity|constructor].
    - inversion T; subst. apply ef_cons in H as (w1 & H1 & A). apply IH in H1 as (w2 & -> & X2); [|assumption]. apply af_plain in A as (w3 & -> & A); [|assumption]. eexists. split; [reflexivity|]. econstructor; eassumption.
  Qed.
  Lemma light_ef st m h w' : light h -> explained_f (Alive (World st m)) h w' -> exists st', w' = Alive (World st' m) /\ seen st st'.
  Proof.
    intros L W. apply ef_plain in W as (w1 & -> & W); [|now apply light_tranquil]. apply light_seen in W as (st' & -> & S); [|exact L]. eauto.
  Qed.
  (** Light calls do not end the process *)
  Lemma light_gone w h : explained_f w h Gone -> light h -> w = Gone.
  Proof.
    intros W. remember Gone as x eqn:Ex. revert Ex. induction W as [w|w h w1 c a w2 W IH A]; intros -> L; [reflexivity|]. inversion L as [|? ? Hc L']; subst. assert (w1 = Gone) as Ew; [|rewrite <- Ew; exact (IH Ew L')].
    inversion A; subst; try reflexivity; match goal with H : waits _ |- _ => destruct H as [->| ->]; destruct Hc as [[]|[]] end.
  Qed.
  Lemma wait_end w c ev w' : waits c -> answered_f w c (ARaise (XEvent ev)) w' -> (exists w1, w = Alive w1 /\ exists w2, w' = Alive w2) \/
    exists e, ev = exit_event e /\ w' = Gone /\
      ((exists st k r, w = Alive (World st Running) /\ ran (e_p E) exec (mem st) (regs st) k r /\ exits F k r e) \/
       (exists st, w = Alive (World st Stepping) /\ exits F (mem st) (regs st) e) \/
       exists s, w = Dying s /\ e = Killed s).
  Proof.
    intros Hw H. inversion H as [w0 c0 a w1 A| |st k r e c0 _ R X|st e c0 _ X|s c0 _|c0 a El _| |]; subst.
    - left. eauto.
    - right. exists e. split; [reflexivity|]. split; [reflexivity|]. left. eauto 8.
    - right. exists e. split; [reflexivity|]. split; [reflexivity|]. right. left. eauto.
    - right. exists (Killed s). split; [reflexivity|]. split; [reflexivity|]. right. right. eauto.
    - destruct Hw as [->| ->]; contradiction.
  Qed.
End World.
