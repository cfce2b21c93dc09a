From Coq Require Import ZArith List Ascii String Bool Lia.
From Verif Require Import PyBase PyFacts Platform IntModel IntSpec CallModel MemModel MemSpec MemProofs MemProofs2 MemProofs3 MemFinal
  StructModel StructProofs RegModel RegSpec RegProofs RegFinal BreakModel BreakSpec BreakProofs BreakFinal SessionModel SessionSpec SessionProofs SessionProofs2.
Import ListNotations.
Open Scope Z_scope.

Definition traps (l : ranges) (m : kmem) : Prop := forall x, covered l x -> k_byte m x = Some (z2b 0xcc).
Definition kept (p : platform) (l : ranges) (k k1 : kmem) : Prop := forall a n, In (a, n) l ->
  (words_mapped p k a n -> words_mapped p k1 a n) /\ (words_pokable p k a n -> words_pokable p k1 a n).

Section Run.
  Context (E : penv) (K : rkernel) (exec : program).
  Hypothesis HE : plain E.
  Hypothesis Hi : is_intel (p_cpu (e_p E)) = true.
  Hypothesis Hnat : native (e_p E).
  Hypothesis Hget : rk_get K = None.
  Hypothesis Hset : forall r, rk_set K r = None.
  Let p := e_p E.

  Lemma quiet_step k r l k1 r1 : quiet E exec k r l -> (forall v, pc p r v -> ~ covered l v) -> exec k r k1 r1 -> quiet E exec k1 r1 l.
  Proof. intros Q Hn Hx k2 r2 v Hr. apply Q. exact (RThere _ _ _ k r k1 r1 k2 r2 Hn Hx Hr). Qed.
  Lemma quiet_here k r l v : quiet E exec k r l -> pc p r v ->
    (covered l v -> exists n, In (v, n) l) /\
    (~ covered l v -> ~ at_trap p k r /\ unaware exec l k r /\ forall k2 r2, exec k r k2 r2 -> zlen r2 = zlen r /\ kept p l k k2).
  Proof. intros Q Hv. exact (Q k r v (RHere _ _ _ k r) Hv). Qed.

  Lemma run_sound l : forall m r m' r', continued p exec m r m' r' -> forall k, beside l k m -> traps l m -> quiet E exec k r l ->
    exists k1 r1 v n, reaches p exec l k r k1 r1 /\ pc p r1 v /\ In (v, n) l /\ beside l k1 m' /\ agree l m m' /\ agree l k k1 /\
      past_trap p r1 r' /\ kept p l k k1 /\ zlen r1 = zlen r.
  Proof.
    intros m r m' r' C. induction C as [m r r' T P|m r m1 r1 m' r' T X C IH]; intros k B Tr Q.
    - destruct T as (v & Hv & Hm). destruct (quiet_here _ _ _ _ Q Hv) as [Q1 Q2].
      destruct (covered_dec l v) as [c|c].
      + destruct (Q1 c) as [n Hn]. exists k, r, v, n. split; [apply RHere|]. split; [exact Hv|]. split; [exact Hn|]. split; [exact B|].
        split; [intros x _; reflexivity|]. split; [intros x _; reflexivity|]. split; [exact P|]. split; [intros a0 n0 _; auto|reflexivity].
      + exfalso. destruct (Q2 c) as [Q3 _]. apply Q3. exists v. split; [exact Hv|]. rewrite <- Hm. symmetry. apply B. exact c.
    - destruct (pc_exists p r (Hin E HE Hi Hnat)) as [v Hv]. destruct (quiet_here _ _ _ _ Q Hv) as [_ Q2].
      assert (~ covered l v) as c by (intros c; apply T; exists v; split; [exact Hv|now apply Tr]).
      assert (forall v', pc p r v' -> ~ covered l v') as Hn by (intros v' Hv'; rewrite (pc_fun p r v' v Hv' Hv); exact c).
      destruct (Q2 c) as (_ & U & W). destruct (proj2 (U m B) m1 r1 X) as (k1 & Xk & B1 & A1 & A2).
      destruct (W k1 r1 Xk) as [Hz Hk1].
      destruct (IH k1 B1) as (k2 & r2 & v2 & n2 & R & P2 & I2 & B2 & A3 & A4 & P3 & K3 & Z3).
      + intros x cx. rewrite (A1 x cx). now apply Tr.
      + exact (quiet_step k r l k1 r1 Q Hn Xk).
      + exists k2, r2, v2, n2. split; [exact (RThere _ _ _ k r k1 r1 k2 r2 Hn Xk R)|]. split; [exact P2|]. split; [exact I2|]. split; [exact B2|].
        split; [intros x cx; rewrite (A3 x cx); now apply A1|]. split; [intros x cx; rewrite (A4 x cx); now apply A2|]. split; [exact P3|].
        split; [|congruence]. intros a n Han. destruct (Hk1 a n Han), (K3 a n Han). auto.
  Qed.
  Lemma run_complete l k r k1 r1 : reaches p exec l k r k1 r1 -> forall m v n r', beside l k m -> traps l m -> quiet E exec k r l ->
    pc p r1 v -> In (v, n) l -> 0 < n -> past_trap p r1 r' -> exists m', continued p exec m r m' r' /\ beside l k1 m' /\ agree l m m' /\ agree l k k1 /\ kept p l k k1 /\ zlen r1 = zlen r.
  Proof.
    intros R. induction R as [k r|k r k1 r1 k2 r2 Hn X R IH]; intros m v n r' B Tr Q Hv Hl Hpos P.
    - exists m. split; [apply CTrap; [exists v; split; [exact Hv|]|exact P]|].
      + apply Tr. exists (v, n). split; [exact Hl|]. unfold in_range. cbn. lia.
      + split; [exact B|]. split; [intros x _; reflexivity|]. split; [intros x _; reflexivity|]. split; [intros a0 n0 _; auto|reflexivity].
    - destruct (pc_exists p r (Hin E HE Hi Hnat)) as [w Hw]. destruct (quiet_here _ _ _ _ Q Hw) as [_ Q2].
      destruct (Q2 (Hn w Hw)) as (Q3 & U & W). destruct (proj1 (U m B) k1 r1 X) as (m1 & Xm & B1 & A1).
      destruct (W k1 r1 X) as [Hz Hk1].
      assert (agree l k k1) as Ak.
      { assert (beside l k k) as Bk.
        { intros x. split; [reflexivity|]. split; [|reflexivity]. intros cx. destruct (B x) as (_ & Bx & _). split; apply (Bx cx). }
        destruct (proj2 (U k Bk) k1 r1 X) as (k1' & _ & _ & A & _). exact A. }
      destruct (IH m1 v n r' B1) as (m' & C & B2 & A2 & A3 & K3 & Z3); try assumption.
      + intros x cx. rewrite (A1 x cx). now apply Tr.
      + exact (quiet_step k r l k1 r1 Q Hn X).
      + exists m'. split; [|split; [exact B2|]].
        * refine (CRun _ _ m r m1 r1 m' r' _ Xm C). intros (w' & Hw' & Hm). rewrite (pc_fun p r w' w Hw' Hw) in Hm.
          apply Q3. exists w. split; [exact Hw|]. rewrite <- Hm. symmetry. apply B. exact (Hn w Hw).
        * split; [intros x cx; rewrite (A2 x cx); now apply A1|]. split; [intros x cx; rewrite (A3 x cx); now apply Ak|]. split; [|congruence].
          intros a0 n0 Han. destruct (Hk1 a0 n0 Han), (K3 a0 n0 Han). auto.
  Qed.

  (** *** Stops *)
  Lemma sim_traps i st : sim E i st -> traps (i_breakpoints i) (s_mem (b_mem st)) /\ beside (i_breakpoints i) (i_mem i) (s_mem (b_mem st)).
  Proof.
    intros S. split.
    - intros x c. apply (sim_covered E i st x S) in c as (bp & L & C1 & C2).
      destruct (live_inv _ _ _ _ (sm_inv _ _ _ S) L) as (id & _ & _ & _ & _ & _ & _ & nw & Bn & Hl & Hs).
      rewrite (trap_bytes E Hi _ _ Bn) in Hs.
      assert (nth_error (repeat (z2b 0xcc) (Z.to_nat (bp_size bp))) (Z.to_nat (x - bp_address bp)) = Some (z2b 0xcc)) as Hnth.
      { rewrite (nth_error_nth' _ (z2b 0xcc)); [now rewrite nth_repeat|]. rewrite repeat_length. lia. }
      pose proof (Hs _ _ Hnth) as H. replace (bp_address bp + _) with x in H by lia. exact H.
    - intros x. split; [|split].
      + intros c. apply (i_rest _ _ _ (sm_inv _ _ _ S)). intros bp L C. apply c. apply (sim_covered E i st x S). eauto.
      + intros c. assert (k_byte (s_mem (b_mem st)) x <> None) as H.
        { apply (sim_covered E i st x S) in c as (bp & L & C1 & C2).
          destruct (live_inv _ _ _ _ (sm_inv _ _ _ S) L) as (id & _ & _ & _ & _ & _ & _ & nw & Bn & Hl & Hs).
          destruct (nth_error nw (Z.to_nat (x - bp_address bp))) as [b|] eqn:Eb.
          - pose proof (Hs _ _ Eb) as H. replace (bp_address bp + _) with x in H by lia. congruence.
          - apply nth_error_None in Eb. unfold zlen in Hl. lia. }
        split; [now apply (mapped_iff E i st x S)|exact H].
      + apply (i_poke _ _ _ (sm_inv _ _ _ S)).
  Qed.
  Lemma stop_inv i st k1 m' r' : sim E i st -> let l := i_breakpoints i in
    beside l k1 m' -> agree l (s_mem (b_mem st)) m' -> agree l (i_mem i) k1 -> kept p l (i_mem i) k1 -> inv E k1 (stopped_with st m' r').
  Proof.
    intros S l B A1 A2 Kp. pose proof (sm_inv _ _ _ S) as I.
    assert (forall bp, live (stopped_with st m' r') bp <-> live st bp) as HL by (intros bp; reflexivity).
    assert (forall bp j, live st bp -> 0 <= j < bp_size bp -> covered l (bp_address bp + j)) as Hcov.
    { intros bp j L Hj. apply (sim_covered E i st _ S). exists bp. split; [exact L|]. split; lia. }
    constructor.
    - exact (i_running _ _ _ I).
    - exact (i_keys _ _ _ I).
    - intros a id H. destruct (i_dict _ _ _ I a id H) as (bp & N & B1 & B2 & B3 & B4 & B5 & nw & B6 & B7 & B8). subst a.
      assert (live st bp) as L by (exists (bp_address bp), id; auto).
      assert (In (bp_address bp, bp_size bp) l) as Hl by (apply (sm_bps _ _ _ S); eauto).
      exists bp. split; [exact N|]. split; [exact B1|]. split; [reflexivity|]. split; [exact B3|]. split.
      { intros j c Hj. rewrite A2; [now apply B4|]. apply Hcov; [exact L|].
        assert (j < List.length (bp_old bp))%nat by (apply nth_error_Some; congruence). unfold zlen in B3. lia. }
      destruct B5 as (C1 & C2 & C3 & C4 & C5). destruct (Kp _ _ Hl) as [Kp1 Kp2].
      assert (words_mapped (e_p E) k1 (bp_address bp) (bp_size bp)) as M1.
      { apply Kp1. intros x w Hx Hw y Hy. apply (mapped_iff E i st y S). now apply (C3 x w Hx Hw). }
      assert (words_pokable (e_p E) k1 (bp_address bp) (bp_size bp)) as M2.
      { apply Kp2. intros x w Hx Hw y Hy. rewrite <- (i_poke _ _ _ I). now apply (C4 x w Hx Hw). }
      split.
      { split; [exact C1|]. split; [exact C2|]. split.
        - intros x w Hx Hw y Hy. cbn. destruct (B y) as (By1 & By2 & _). destruct (covered_dec l y) as [c|c].
          + apply (By2 c).
          + rewrite (By1 c). now apply (M1 x w Hx Hw).
        - split; [|exact C5]. intros x w Hx Hw y Hy. cbn. destruct (B y) as (_ & _ & By3). rewrite By3. now apply (M2 x w Hx Hw). }
      exists nw. split; [exact B6|]. split; [exact B7|]. intros j c Hj. cbn. rewrite A1; [now apply B8|]. apply Hcov; [exact L|].
      assert (j < List.length nw)%nat by (apply nth_error_Some; congruence). unfold zlen in B7. lia.
    - exact (i_objs _ _ _ I).
    - exact (i_apart _ _ _ I).
    - intros x Hx. cbn. destruct (B x) as (By1 & _ & _). apply By1. intros c. apply (sim_covered E i st x S) in c as (bp & L & C). exact (Hx bp L C).
    - intros x. cbn. apply (B x).
  Qed.
  Lemma inv_regs k st rg : inv E k st -> inv E k (with_regs st rg).
  Proof. intros I. destruct I. constructor; assumption. Qed.
  Lemma desinstall_regs id st bp rg : nth_error (b_objs st) id = Some bp -> bp_installed bp = true -> snd (desinstall E K id false st) = Ok tt ->
    setInstrPointer K (e_p E) (bp_address bp) (b_regs st) = (rg, Ok tt) ->
    desinstall E K id true st = (with_regs (fst (desinstall E K id false st)) rg, Ok tt).
  Proof.
    intros N I Hok Hs. unfold desinstall in *. rewrite N, I in *. cbn [negb] in *. cbn [b_running with_objs b_mem] in *.
    assert (forall st1 : bstate, b_regs st1 = b_regs st -> snd (removeBreakpoint bp st1) = Ok tt ->
      (let (rg0, r) := setInstrPointer K (e_p E) (bp_address bp) (b_regs st1) in
       let '(st2, r0) := (with_regs st1 rg0, r) in match r0 with Err e => (st2, Err e) | Ok _ => removeBreakpoint bp st2 end) =
      (with_regs (fst (removeBreakpoint bp st1)) rg, Ok tt)) as H.
    { intros st1 Hr Hrm. rewrite Hr, Hs. unfold removeBreakpoint in *. cbn [b_dict with_regs]. destruct (dmem _ _ _); [reflexivity|discriminate]. }
    destruct (b_running st).
    - destruct (writeBytes E (bp_address bp) (bp_old bp) (b_mem st)) as [m [u|e]]; [|discriminate].
      specialize (H (with_mem (with_objs st (set_nth id (BP (bp_address bp) (bp_size bp) (bp_old bp) false) (b_objs st))) m) eq_refl Hok).
      cbn [b_regs with_mem with_objs] in H |- *. rewrite Hs in H |- *. exact H.
    - specialize (H (with_objs st (set_nth id (BP (bp_address bp) (bp_size bp) (bp_old bp) false) (b_objs st))) eq_refl Hok).
      cbn [b_regs with_objs] in H |- *. rewrite Hs in H |- *. exact H.
  Qed.
  Lemma stopped_sim i st k1 (r1 : list byte) m' (r' : list byte) : sim E i st -> let l := i_breakpoints i in
    beside l k1 m' -> agree l (s_mem (b_mem st)) m' -> agree l (i_mem i) k1 -> kept p l (i_mem i) k1 -> zlen r1 = zlen (i_regs i) -> zlen r' = zlen r1 ->
    sim E (Ideal k1 r' l) (stopped_with st m' r').
  Proof.
    intros S l B A1 A2 Kp Hz Hz1. pose proof (stop_inv i st k1 m' r' S B A1 A2 Kp) as I. pose proof (sm_whole _ _ _ S) as Hw. constructor.
    - exact I.
    - reflexivity.
    - cbn. unfold whole in *. lia.
    - exact (sm_bps _ _ _ S).
    - exact (sm_file _ _ _ S).
    - exact (sm_top _ _ _ S).
  Qed.
  Lemma past_len r1 r' v : pc p r1 v -> past_trap p r1 r' -> pc p r' (v + 1) /\ zlen r' = zlen r1.
  Proof. intros Hv (o & sz & v' & F & P1 & P2 & P3 & _). rewrite (pc_fun p r1 v' v P1 Hv) in P2. auto. Qed.
  Lemma back_sim k1 r1 r' l st id bp v n : sim E (Ideal k1 r' l) st -> whole p r1 -> pc p r1 v -> In (v, n) l -> past_trap p r1 r' ->
    nth_error (b_objs st) id = Some bp -> live st bp -> bp_address bp = v -> bp_size bp = n ->
    exists st', desinstall E K id true st = (st', Ok tt) /\ sim E (Ideal k1 r1 (without (v, n) l)) st'.
  Proof.
    intros S Hw Hv Hl P N L B1 B2. destruct (sim_remove E K HE k1 r' l st (v, n) bp id S Hl N L B1 B2) as [R1 R2].
    assert (bp_installed bp = true) as Hin1 by (destruct (live_inv _ _ _ _ (sm_inv _ _ _ S) L) as (_ & _ & _ & H & _); exact H).
    assert (past_trap (e_p E) r1 (r_regs (b_regs st))) as P' by (rewrite (sm_regs _ _ _ S); exact P).
    destruct (reset_pc K (e_p E) (b_regs st) r1 v (Hin E HE Hi Hnat) Hget Hset Hw Hv P') as (rg & G1 & G2). rewrite <- B1 in G1 at 1.
    rewrite (desinstall_regs id st bp rg N Hin1 R2 G1). eexists. split; [reflexivity|]. constructor.
    - apply inv_regs. exact (sm_inv _ _ _ R1).
    - exact G2.
    - exact Hw.
    - exact (sm_bps _ _ _ R1).
    - exact (sm_file _ _ _ R1).
    - exact (sm_top _ _ _ R1).
  Qed.
  Lemma stop_sim i st k1 r1 m' r' v n : sim E i st -> let l := i_breakpoints i in
    beside l k1 m' -> agree l (s_mem (b_mem st)) m' -> agree l (i_mem i) k1 -> kept p l (i_mem i) k1 ->
    pc p r1 v -> In (v, n) l -> past_trap p r1 r' -> zlen r1 = zlen (i_regs i) ->
    sim E (Ideal k1 r1 (without (v, n) l)) (fst (hit_breakpoint E K (stopped_with st m' r'))).
  Proof.
    intros S l B A1 A2 Kp Hv Hl P Hz. destruct (past_len _ _ _ Hv P) as [Hv1 Hz1].
    pose proof (stopped_sim i st k1 r1 m' r' S B A1 A2 Kp Hz Hz1) as S0.
    assert (whole p r1) as Hw by (unfold whole; rewrite Hz; exact (sm_whole _ _ _ S)).
    pose proof (sm_whole _ _ _ S0) as Hw'. cbn [i_regs] in Hw'.
    set (st0 := stopped_with st m' r') in *.
    assert (0 < n) as Hn.
    { apply (sm_bps _ _ _ S) in Hl as (bp & L & _ & <-). exact (live_size E _ _ _ (sm_inv _ _ _ S) L). }
    unfold hit_breakpoint. rewrite (get_pc K (e_p E) (b_regs st0) (v + 1) (Hin E HE Hi Hnat) Hget Hw' Hv1).
    replace (is_powerpc (p_cpu (e_p E))) with false by (destruct (p_cpu (e_p E)); try discriminate Hi; reflexivity).
    replace (v + 1 - 1) with v by lia.
    set (st1 := with_regs st0 (noted GetRegs (b_regs st0))).
    assert (sim E (Ideal k1 r' l) st1) as S1.
    { constructor; [exact (inv_regs _ _ _ (sm_inv _ _ _ S0))|reflexivity|exact Hw'|exact (sm_bps _ _ _ S)|exact (sm_file _ _ _ S)|exact (sm_top _ _ _ S)]. }
    destruct (sim_find E _ _ (v, n) v S1 Hl) as (id & bp & F & N & L & B1 & B2); [unfold in_range; cbn; lia|]. cbn [fst snd] in B1, B2.
    rewrite F. destruct (back_sim k1 r1 r' l st1 id bp v n S1 Hw Hv Hl P N L B1 B2) as (st' & R & S'). rewrite R. exact S'.
  Qed.

  (** *** Sessions *)
  Lemma sim_continue i st : sim E i st -> quiet E exec (i_mem i) (i_regs i) (i_breakpoints i) ->
    (forall st', debugged E K exec st Continue st' -> exists i', ideal E exec i Continue i' /\ sim E i' st') /\
    (forall i', ideal E exec i Continue i' -> exists st', debugged E K exec st Continue st' /\ sim E i' st').
  Proof.
    intros S Q. destruct (sim_traps i st S) as [Tr B]. destruct i as [k r l]. cbn [i_mem i_regs i_breakpoints] in *. split.
    - intros st' D. inversion D as [| |st0 m' r' C E1 E2 E3| |]; subst. rewrite (sm_regs _ _ _ S) in C. cbn in C.
      destruct (run_sound l _ _ _ _ C k B Tr Q) as (k1 & r1 & v & n & R & Hv & Hl & B1 & A1 & A2 & P & Kp & Hz).
      exists (Ideal k1 r1 (without (v, n) l)). split; [exact (IContinue _ _ k r l k1 r1 (v, n) R Hl Hv)|].
      exact (stop_sim (Ideal k r l) st k1 r1 m' r' v n S B1 A1 A2 Kp Hv Hl P Hz).
    - intros i' HI. inversion HI as [| | | |k0 r0 l0 k1 r1 [v n] R Hl Hv E1 E2 E3| |]; subst. cbn [fst] in Hv.
      assert (exists bp, live st bp /\ bp_address bp = v /\ bp_size bp = n) as (bp & L & Bv & Bn) by (now apply (sm_bps _ _ _ S)).
      assert (0 < n) as Hn by (rewrite <- Bn; exact (live_size E _ _ _ (sm_inv _ _ _ S) L)).
      assert (whole p r1 /\ kept p l k k1) as [Hw Kp].
      { clear Hv HI. revert Q. assert (whole p r) as Hw by exact (sm_whole _ _ _ S). revert Hw. clear - R HE Hi Hnat.
        induction R as [k r|k r k1 r1 k2 r2 Hn X R IH]; intros Hw Q; [split; [exact Hw|intros a n _; auto]|].
        destruct (pc_exists p r (Hin E HE Hi Hnat)) as [w Hpc]. destruct (quiet_here _ _ _ _ Q Hpc) as [_ Q2].
        destruct (Q2 (Hn w Hpc)) as (_ & _ & W). destruct (W k1 r1 X) as [Hz Hk1].
        destruct IH as [I1 I2]; [unfold whole in *; lia|exact (quiet_step k r l k1 r1 Q Hn X)|]. split; [exact I1|].
        intros a n H. destruct (Hk1 a n H), (I2 a n H). auto. }
      destruct (trap_regs p r1 v (Hin E HE Hi Hnat) Hw Hv) as [r' P].
      { pose proof (sm_top _ _ _ S v n Hl) as Ht. unfold p in *. lia. }
      destruct (run_complete l k r k1 r1 R _ v n r' B Tr Q Hv Hl Hn P) as (m' & C & B1 & A1 & A2 & Kp' & Hz).
      eexists. split; [apply DContinue; rewrite (sm_regs _ _ _ S); exact C|].
      exact (stop_sim (Ideal k r l) st k1 r1 m' r' v n S B1 A1 A2 Kp' Hv Hl P Hz).
  Qed.
End Run.
