From Coq Require Import ZArith List Ascii String Bool Lia.
From Verif Require Import PyBase PyFacts Platform IntModel IntSpec CallModel MemModel MemSpec MemProofs MemProofs2 MemProofs3 MemFinal
  StructModel StructProofs RegModel RegSpec RegProofs RegFinal BreakModel BreakSpec BreakProofs BreakFinal SessionModel SessionSpec SessionProofs SessionProofs2
  SessionProofs3.
Import ListNotations.
Open Scope Z_scope.

Section Steps.
  Context (E : penv) (K : rkernel) (exec : program).
  Hypothesis HE : plain E.
  Hypothesis Hi : is_intel (p_cpu (e_p E)) = true.
  Hypothesis Hnat : native (e_p E).
  Hypothesis Hget : rk_get K = None.
  Hypothesis Hset : forall r, rk_set K r = None.
  Let p := e_p E.

  Lemma create_id k r l st a size : sim E (Ideal k r l) st -> settable E k l a (break_size E size) -> ~ covered l a ->
    exists st1 id bp, createBreakpoint E a size st = (st1, Ok id) /\ nth_error (b_objs st1) id = Some bp /\ live st1 bp /\
      bp_address bp = a /\ bp_size bp = break_size E size /\ b_regs st1 = b_regs st /\ sim E (Ideal k r (l ++ [(a, break_size E size)])) st1.
  Proof.
    intros S Hs Hc. pose proof (settable_accessible E _ _ _ _ S Hs) as Ha. pose proof HE as (Ho & Hb & Hp & Hfa & Hn & Hop).
    pose proof (sim_break E exec HE _ _ a size _ S Hs (IBreak E exec k r l a size Hc)) as S1.
    assert (findBreakpoint a st = None) as Hf.
    { destruct (findBreakpoint a st) as [id|] eqn:Ef; [|reflexivity]. destruct (find_live _ _ _ Ef) as (bp & _ & L & C).
      exfalso. apply Hc. apply (sim_covered E _ _ a S). eauto. }
    destruct (create_live E HE _ _ _ _ S Ha Hf) as (R1 & _).
    destruct (new_breakpoint_ok E Ho Hp Hfa Hn Hop Hb a size (b_mem st) Ha) as (m & old & new & R & _).
    unfold createBreakpoint in *. rewrite Hf, R in *. cbn [fst] in *. eexists _, _, (BP a (break_size E size) old true).
    split; [reflexivity|]. split; [cbn; now rewrite nth_error_app2, Nat.sub_diag by lia|]. split; [|auto].
    exists a, (List.length (b_objs st)). cbn. split; [|now rewrite nth_error_app2, Nat.sub_diag by lia].
    assert (~ In a (map fst (b_dict st))) as Hnew.
    { intros H. apply in_map_iff in H as ((a' & j) & E1 & H). cbn in E1. subst a'.
      destruct (i_dict _ _ _ (sm_inv _ _ _ S) a j H) as (b & B1 & B2 & B3 & B4 & B5 & B6 & _).
      eapply find_in_none; [exact Hf|exact H|exact B1|]. split; [lia|]. destruct B6 as (B6 & _). lia. }
    apply (dset_new_in (b_dict st) a (List.length (b_objs st)) Hnew). now right.
  Qed.
  Lemma sim_list k r l l' st : (forall a n, In (a, n) l <-> In (a, n) l') -> sim E (Ideal k r l) st -> sim E (Ideal k r l') st.
  Proof.
    intros H S. constructor; try apply S; cbn [i_breakpoints].
    - intros a n. rewrite <- H. apply (sm_bps _ _ _ S).
    - intros a n Ha. apply (sm_top _ _ _ S). cbn. now apply H.
  Qed.
  Lemma without_last l a n : ~ covered l a -> 0 < n -> forall b m, In (b, m) (without (a, n) (l ++ [(a, n)])) <-> In (b, m) l.
  Proof.
    intros Hc Hn b m. rewrite (in_without), in_app_iff. split.
    - intros [[H|[H|[]]] Hne]; [exact H|congruence].
    - intros H. split; [now left|]. intros [= -> ->]. apply Hc. exists (a, n). split; [exact H|]. unfold in_range. cbn. lia.
  Qed.
  Lemma istep_inv k r l a size i' : ideal E exec (Ideal k r l) (Step a size) i' ->
    exists k1 r1, i' = Ideal k1 r1 l /\ reaches p exec (l ++ [(a, break_size E size)]) k r k1 r1 /\ pc p r1 a.
  Proof. intros H. inversion H; subst. eauto. Qed.
  Lemma sim_step k r l st a size : sim E (Ideal k r l) st -> let l' := l ++ [(a, break_size E size)] in
    settable E k l a (break_size E size) -> ~ covered l a -> quiet E exec k r l' ->
    (forall k1 r1 v, reaches p exec l' k r k1 r1 -> pc p r1 v -> covered l' v -> v = a) ->
    (forall st', debugged E K exec st (Step a size) st' -> exists i', ideal E exec (Ideal k r l) (Step a size) i' /\ sim E i' st') /\
    (forall i', ideal E exec (Ideal k r l) (Step a size) i' -> exists st', debugged E K exec st (Step a size) st' /\ sim E i' st').
  Proof.
    intros S l' Hs Hc Q Only. destruct (create_id k r l st a size S Hs Hc) as (st1 & id & bp & R & N & L & B1 & B2 & Rg & S1).
    fold l' in S1. destruct (sim_traps E Hi _ _ S1) as [Tr B]. cbn [i_breakpoints i_mem] in Tr, B.
    assert (0 < break_size E size) as Hpos by apply Hs.
    assert (forall k1 r1 m' r', beside l' k1 m' -> agree l' (s_mem (b_mem st1)) m' -> agree l' k k1 -> kept p l' k k1 -> pc p r1 a -> past_trap p r1 r' ->
      zlen r1 = zlen r -> sim E (Ideal k1 r1 l) (fst (step_over E K a size (fun st => stopped_with st m' r') st))) as Main.
    { intros k1 r1 m' r' B3 A1 A2 Kp Hv P Hz. unfold step_over. rewrite R. destruct (past_len E _ _ _ Hv P) as [Hv1 Hz1].
      pose proof (stopped_sim E (Ideal k r l') st1 k1 r1 m' r' S1 B3 A1 A2 Kp Hz Hz1) as S2.
      assert (whole p r1) as Hw by (unfold whole; rewrite Hz; exact (sm_whole _ _ _ S)).
      destruct (back_sim E K HE Hi Hnat Hget Hset k1 r1 r' l' (stopped_with st1 m' r') id bp a (break_size E size) S2 Hw Hv) as (st' & R' & S');
        try assumption; [apply in_app_iff; right; now left|].
      rewrite R'. cbn [fst]. exact (sim_list _ _ _ _ _ (without_last l a _ Hc Hpos) S'). }
    assert (In (a, break_size E size) l') as Hlast by (apply in_app_iff; right; now left).
    split.
    - intros st' D. inversion D as [| | |st0 a0 s0 m' r' st1' C E1 E2 E3|]; try (subst st'); subst st1'. try clear E1; try subst st0; try subst a0; try subst s0. rewrite R in C. cbn [fst] in C. rewrite (sm_regs _ _ _ S1) in C.
      destruct (run_sound E exec HE Hi Hnat l' _ _ _ _ C k B Tr Q) as (k1 & r1 & v & n & Rr & Hv & Hl & B3 & A1 & A2 & P & Kp & Hz).
      assert (0 < n) as Hn.
      { apply (sm_bps _ _ _ S1) in Hl as (b & Lb & _ & <-). exact (live_size E _ _ _ (sm_inv _ _ _ S1) Lb). }
      assert (v = a) as -> by (apply (Only k1 r1 v Rr Hv); exists (v, n); split; [exact Hl|unfold in_range; cbn; lia]).
      exists (Ideal k1 r1 l). split; [exact (IStep E exec k r l a size k1 r1 Rr Hv)|]. exact (Main k1 r1 m' r' B3 A1 A2 Kp Hv P Hz).
    - intros i' HI. destruct (istep_inv k r l a size i' HI) as (k1 & r1 & -> & Rr & Hv). fold l' in Rr.
      assert (whole p r1) as Hw.
      { assert (whole p r) as Hw by exact (sm_whole _ _ _ S). clear - Rr Hw Q HE Hi Hnat. revert Hw Q.
        induction Rr as [k r|k r k1 r1 k2 r2 Hn X Rr IH]; intros Hw Q; [exact Hw|].
        destruct (pc_exists p r (Hin E HE Hi Hnat)) as [w Hpc]. destruct (quiet_here E exec _ _ _ _ Q Hpc) as [_ Q2].
        destruct (Q2 (Hn w Hpc)) as (_ & _ & W). destruct (W k1 r1 X) as [Hz _].
        apply IH; [unfold whole in *; lia|exact (quiet_step E exec k r l' k1 r1 Q Hn X)]. }
      destruct (trap_regs p r1 a (Hin E HE Hi Hnat) Hw Hv) as [r' P].
      { pose proof (sm_top _ _ _ S1 a _ Hlast) as Ht. unfold p in *. lia. }
      destruct (run_complete E exec HE Hi Hnat l' k r k1 r1 Rr _ a _ r' B Tr Q Hv Hlast Hpos P) as (m' & C & B3 & A1 & A2 & Kp & Hz).
      eexists. split; [apply (DStep E K exec st a size m' r'); rewrite R; cbn [fst]; rewrite (sm_regs _ _ _ S1); exact C|].
      exact (Main k1 r1 m' r' B3 A1 A2 Kp Hv P Hz).
  Qed.
  Lemma sim_stepi k r l st : sim E (Ideal k r l) st -> (forall v, pc p r v -> ~ covered l v) -> calm E exec l k r ->
    (forall st', debugged E K exec st Stepi st' -> exists i', ideal E exec (Ideal k r l) Stepi i' /\ sim E i' st') /\
    (forall i', ideal E exec (Ideal k r l) Stepi i' -> exists st', debugged E K exec st Stepi st' /\ sim E i' st').
  Proof.
    intros S Hn (Nt & U & W). destruct (sim_traps E Hi _ _ S) as [Tr B]. cbn [i_breakpoints i_mem] in Tr, B.
    destruct (pc_exists p r (Hin E HE Hi Hnat)) as [v Hv]. pose proof (Hn v Hv) as Hc.
    assert (~ at_trap p (s_mem (b_mem st)) r) as Nt'.
    { intros (v' & Hv' & Hb). rewrite (pc_fun p r v' v Hv' Hv) in Hb. apply Nt. exists v. split; [exact Hv|].
      rewrite <- Hb. symmetry. apply B. exact Hc. }
    split.
    - intros st' D. inversion D as [| | | |st0 m' r' C E1 E2 E3]; subst. rewrite (sm_regs _ _ _ S) in C. cbn in C.
      inversion C as [k0 r0 r0' T P|k0 r0 k1 r1 T X]; subst; [contradiction|].
      destruct (proj2 (U _ B) _ _ X) as (k1 & Xk & B1 & A1 & A2). destruct (W _ _ Xk) as [Hz Kp].
      exists (Ideal k1 r' l). split; [now apply IStepi|]. exact (stopped_sim E (Ideal k r l) st k1 r' m' r' S B1 A1 A2 Kp Hz eq_refl).
    - intros i' HI. inversion HI as [| | | | | |k0 r0 l0 k1 r1 X E1 E2 E3]; subst.
      destruct (proj1 (U _ B) _ _ X) as (m' & Xm & B1 & A1). destruct (W _ _ X) as [Hz Kp].
      assert (agree l k k1) as Ak.
      { assert (beside l k k) as Bk.
        { intros x. split; [reflexivity|]. split; [|reflexivity]. intros cx. destruct (B x) as (_ & Bx & _). split; apply (Bx cx). }
        destruct (proj2 (U k Bk) k1 r1 X) as (k1' & _ & _ & A & _). exact A. }
      eexists. split; [apply DStepi; rewrite (sm_regs _ _ _ S); apply OneRun; [exact Nt'|exact Xm]|].
      exact (stopped_sim E (Ideal k r l) st k1 r1 m' r1 S B1 A1 Ak Kp Hz eq_refl).
  Qed.

  (** *** Sessions *)
  Definition matches (i : ideal_state) (c : command) (st : bstate) : Prop :=
    (forall st', debugged E K exec st c st' -> exists i', ideal E exec i c i' /\ sim E i' st') /\
    (forall i', ideal E exec i c i' -> exists st', debugged E K exec st c st' /\ sim E i' st').
  Lemma sim_command i c st l : sim E i st -> tame E exec i (c :: l) -> matches i c st.
  Proof.
    intros S [Ht _]. destruct c as [a size|a| |a size|]; cbn in Ht; unfold matches.
    - split.
      + intros st' D. inversion D; subst. destruct i as [k r bps]. destruct (covered_dec bps a) as [c|c].
        * exists (Ideal k r bps). split; [now apply IBreakAgain|]. exact (sim_break E exec HE _ _ a size _ S Ht (IBreakAgain E exec k r bps a size c)).
        * eexists. split; [apply (IBreak E exec k r bps a size c)|]. exact (sim_break E exec HE _ _ a size _ S Ht (IBreak E exec k r bps a size c)).
      + intros i' HI. eexists. split; [apply DBreak|]. exact (sim_break E exec HE _ _ a size _ S Ht HI).
    - split.
      + intros st' D. inversion D; subst. destruct i as [k r bps]. destruct (covered_dec bps a) as [(an & c1 & c2)|c].
        * eexists. split; [apply (IDelete E exec k r bps a an c1 c2)|]. exact (sim_delete E K exec HE _ _ a _ S (IDelete E exec k r bps a an c1 c2)).
        * eexists. split; [apply (IDeleteNone E exec k r bps a c)|]. exact (sim_delete E K exec HE _ _ a _ S (IDeleteNone E exec k r bps a c)).
      + intros i' HI. eexists. split; [apply DDelete|]. exact (sim_delete E K exec HE _ _ a _ S HI).
    - exact (sim_continue E K exec HE Hi Hnat Hget Hset i st S Ht).
    - destruct i as [k r bps]. cbn [i_mem i_regs i_breakpoints] in Ht. destruct Ht as (T1 & T2 & T3 & T4). exact (sim_step k r bps st a size S T1 T2 T3 T4).
    - destruct i as [k r bps]. cbn [i_mem i_regs i_breakpoints] in Ht. destruct Ht as (T1 & T2). exact (sim_stepi k r bps st S T1 T2).
  Qed.
  Lemma session_sound l : forall i st st', sim E i st -> tame E exec i l -> session E K exec st l st' -> exists i', ideals E exec i l i' /\ sim E i' st'.
  Proof.
    induction l as [|c l IH]; intros i st st' S T H; inversion H as [|st0 c0 st1 l0 st2 D H']; subst.
    - exists i. split; [apply INil|exact S].
    - destruct (proj1 (sim_command i c st l S T) st1 D) as (i1 & I1 & S1). destruct (IH i1 st1 st' S1) as (i2 & I2 & S2); [apply T; exact I1|exact H'|].
      exists i2. split; [exact (ICons _ _ i c i1 l i2 I1 I2)|exact S2].
  Qed.
  Lemma session_complete l : forall i st i', sim E i st -> tame E exec i l -> ideals E exec i l i' -> exists st', session E K exec st l st' /\ sim E i' st'.
  Proof.
    induction l as [|c l IH]; intros i st i' S T H; inversion H as [|i0 c0 i1 l0 i2 D H']; subst.
    - exists st. split; [apply SNil|exact S].
    - destruct (proj2 (sim_command i c st l S T) i1 D) as (st1 & I1 & S1). destruct (IH i1 st1 i' S1) as (st2 & I2 & S2); [apply T; exact D|exact H'|].
      exists st2. split; [exact (SCons _ _ _ st c st1 l st2 I1 I2)|exact S2].
  Qed.
  Lemma sim_state i st : sim E i st -> in_state st i.
  Proof.
    intros S. destruct (sim_traps E Hi i st S) as [Tr B]. split; [exact (sm_regs _ _ _ S)|]. split; [intros x Hx; now apply B|].
    split; [intros x; apply B|]. split; [exact (sm_bps _ _ _ S)|]. intros bp L.
    destruct (live_inv _ _ _ _ (sm_inv _ _ _ S) L) as (id & _ & _ & _ & A1 & A2 & _ & nw & A3 & A4 & A5).
    rewrite (trap_bytes E Hi _ _ A3) in A5. auto.
  Qed.
End Steps.

Lemma fresh_sim E K st : fresh_process E K st -> sim E (Ideal (s_mem (b_mem st)) (r_regs (b_regs st)) []) st.
Proof.
  intros (HE & Hi & Hnat & Hg & Hs & Hr & Hb & Hw & Hf). pose proof HE as (Ho & Hbe & Hp & Hfa & Hn & Hop).
  assert (forall bp, ~ live st bp) as Hnl. { intros bp (a & id & H & _). destruct Hb as [_ Hd]. rewrite Hd in H. exact H. }
  constructor; cbn.
  - apply (inv_init E); assumption.
  - reflexivity.
  - exact Hw.
  - intros a n. split; [intros []|]. intros (bp & L & _). exact (Hnl bp L).
  - exact Hf.
  - intros a n [].
Qed.
Theorem sound E K exec st l st' : fresh_process E K st -> let i := Ideal (s_mem (b_mem st)) (r_regs (b_regs st)) [] in
  tame E exec i l -> session E K exec st l st' -> exists i', ideals E exec i l i' /\ in_state st' i'.
Proof.
  intros F i T H. pose proof (fresh_sim E K st F) as S. destruct F as (HE & Hi & Hnat & Hg & Hs & _).
  destruct (session_sound E K exec HE Hi Hnat Hg Hs l i st st' S T H) as (i' & I & S'). exists i'. split; [exact I|]. exact (sim_state E Hi i' st' S').
Qed.
Theorem complete E K exec st l i' : fresh_process E K st -> let i := Ideal (s_mem (b_mem st)) (r_regs (b_regs st)) [] in
  tame E exec i l -> ideals E exec i l i' -> exists st', session E K exec st l st' /\ in_state st' i'.
Proof.
  intros F i T H. pose proof (fresh_sim E K st F) as S. destruct F as (HE & Hi & Hnat & Hg & Hs & _).
  destruct (session_complete E K exec HE Hi Hnat Hg Hs l i st i' S T H) as (st' & I & S'). exists st'. split; [exact I|]. exact (sim_state E Hi i' st' S').
Qed.
Lemma reaches_all p exec l k r k1 r1 : reaches p exec l k r k1 r1 -> reaches p exec [] k r k1 r1.
Proof.
  induction 1 as [k r|k r k1 r1 k2 r2 Hn X R IH]; [apply RHere|]. refine (RThere _ _ _ k r k1 r1 k2 r2 _ X IH). intros v _ (an & [] & _).
Qed.
Lemma reaches_app p exec k r k1 r1 k2 r2 : reaches p exec [] k r k1 r1 -> reaches p exec [] k1 r1 k2 r2 -> reaches p exec [] k r k2 r2.
Proof. induction 1 as [k r|k r k1 r1 k3 r3 Hn X R IH]; intros H; [exact H|]. exact (RThere _ _ _ k r k1 r1 k2 r2 Hn X (IH H)). Qed.
Lemma ideals_run E exec l : forall i i', ideals E exec i l i' -> reaches (e_p E) exec [] (i_mem i) (i_regs i) (i_mem i') (i_regs i').
Proof.
  induction l as [|c l IH]; intros i i' H; inversion H as [|i0 c0 i1 l0 i2 D H']; subst; [apply RHere|].
  apply (reaches_app _ _ _ _ (i_mem i1) (i_regs i1)); [|now apply IH].
  inversion D; subst; cbn; try apply RHere.
  - eapply reaches_all. eassumption.
  - eapply reaches_all. eassumption.
  - eapply RThere; [|eassumption|apply RHere]. intros v _ (an & [] & _).
Qed.
(** The run of the program is one without any breakpoint; without breakpoints left the process has its memory. *)
Theorem undebugged E K exec st l st' : fresh_process E K st -> tame E exec (Ideal (s_mem (b_mem st)) (r_regs (b_regs st)) []) l ->
  session E K exec st l st' ->
  exists k, reaches (e_p E) exec [] (s_mem (b_mem st)) (r_regs (b_regs st)) k (r_regs (b_regs st')) /\
    (forall x, (forall bp, live st' bp -> ~ covers bp x) -> k_byte (s_mem (b_mem st')) x = k_byte k x) /\
    (forall x, k_pokable (s_mem (b_mem st')) x = k_pokable k x).
Proof.
  intros F T H. destruct (sound E K exec st l st' F T H) as (i' & I & S1 & S2 & S3 & S4 & _). pose proof (ideals_run E exec l _ _ I) as R. cbn in R.
  exists (i_mem i'). split; [rewrite S1; exact R|]. split; [|exact S3]. intros x Hx. apply S2. intros ([a n] & Ha & C).
  apply S4 in Ha as (bp & L & <- & <-). exact (Hx bp L C).
Qed.
