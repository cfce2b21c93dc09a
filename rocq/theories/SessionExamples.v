(** * SessionExamples: a tiny CPU, used to show that the hypotheses of C125 can be met and what goes wrong without them. *)
From Coq Require Import ZArith List Ascii String Bool Lia.
From Verif Require Import PyBase PyFacts Platform IntModel IntSpec CallModel MemModel MemSpec MemExamples StructModel RegModel RegSpec RegFinal
  BreakModel BreakSpec BreakFinal SessionModel SessionSpec SessionProofs SessionProofs2 SessionProofs3 SessionProofs4.
Import ListNotations.
Open Scope Z_scope.

(** A CPU that knows one instruction, NOP (0x90) *)
Definition nops (p : platform) : program := fun k r k1 r1 =>
  k1 = k /\ exists v, pc p r v /\ k_byte k v = Some (z2b 0x90) /\ past_trap p r r1.
(** One page of code at 4096: NOPs below [n], then HLT *)
Definition code (n : Z) : kmem :=
  KMem (fun x => if (4096 <=? x) && (x <? 8192) then Some (z2b (if x <? n then 0x90 else 0xf4)) else None) (fun _ => true).
Definition P := linux_x86_64.
Definition at_ip (v : Z) : list byte := r_regs (fst (setInstrPointer good_kernel P v (RState (zeros P) []))).
Definition state (n v : Z) : bstate := BState (fresh (code n)) (RState (at_ip v) []) true [] [].

Lemma rip : pc_field P 128 8.
Proof. exists (T "rip"). split; [reflexivity|]. vm_compute. tauto. Qed.
Lemma native_P : intel_native P.
Proof. repeat split. Qed.
Ltac at_pc := exists 128, 8; split; [exact rip|vm_compute; reflexivity].
Ltac past := exists 128, 8; eexists; split; [exact rip|]; split; [at_pc|]; split; [exists 128, 8; split; [exact rip|vm_compute; reflexivity]|]; split; [vm_compute; reflexivity|]; split; vm_compute; reflexivity.
Lemma fresh_state n v : zlen (at_ip v) = zlen (zeros P) -> fresh_process (xenv P) good_kernel (state n v).
Proof.
  intros H. split; [now apply xenv_plain|]. split; [reflexivity|]. split; [reflexivity|]. split; [reflexivity|]. split; [reflexivity|].
  split; [reflexivity|]. split; [split; reflexivity|]. split; [|discriminate]. unfold whole. cbn [state b_regs r_regs]. rewrite H. reflexivity.
Qed.
Lemma code_settable n l a : 4096 <= a < 8192 -> (forall b m, In (b, m) l -> in_range (b, m) a \/ apart a 1 b m) -> settable (xenv P) (code n) l a 1.
Proof.
  intros Ha Hl. split; [lia|]. split; [split; [lia|]; split; [cbn; lia|discriminate]|]. split; [cbn; lia|]. split; [cbn; lia|]. split.
  - intros x w Hx [[q Hq] Hw] y Hy. cbn in *. assert (4096 <= y < 8192) as Hb by lia.
    replace (4096 <=? y) with true by lia. replace (y <? 8192) with true by lia. discriminate.
  - split; [intros x w _ _ y _; reflexivity|exact Hl].
Qed.
Lemma reaches_code p l k r k1 r1 : reaches p (nops p) l k r k1 r1 -> k1 = k.
Proof. induction 1 as [k r|k r k1 r1 k2 r2 Hn [-> _] R IH]; auto. Qed.
Lemma nops_calm l n r : (forall v, pc P r v -> ~ covered l v) -> calm (xenv P) (nops P) l (code n) r.
Proof.
  intros Hn. split; [|split].
  - intros (v & _ & H). cbn in H. destruct ((4096 <=? v) && (v <? 8192)); [|discriminate]. destruct (v <? n); vm_compute in H; discriminate.
  - intros k' B. split.
    + intros k1 r1 (-> & v & Hv & Hb & P1). exists k'. split; [|split; [exact B|intros x _; reflexivity]].
      split; [reflexivity|]. exists v. split; [exact Hv|]. split; [|exact P1]. destruct (B v) as (H & _). rewrite H; auto.
    + intros k1 r1 (-> & v & Hv & Hb & P1). exists (code n). split; [|split; [exact B|split; intros x _; reflexivity]].
      split; [reflexivity|]. exists v. split; [exact Hv|]. split; [|exact P1]. destruct (B v) as (H & _). rewrite <- H; auto.
  - intros k1 r1 (-> & v & Hv & Hb & P1). destruct P1 as (o & sz & w & _ & _ & _ & Hz & _). split; [exact Hz|]. intros a m _. auto.
Qed.
Lemma nops_quiet l n r : (forall b m, In (b, m) l -> m = 1) -> quiet (xenv P) (nops P) (code n) r l.
Proof.
  intros Hl k1 r1 v R Hv. pose proof (reaches_code _ _ _ _ _ _ R) as ->. split.
  - intros ([b m] & H & C). exists m. unfold in_range in C. cbn in C. rewrite (Hl b m H) in C. replace v with b by lia. exact H.
  - intros Hc. apply nops_calm. intros v' Hv'. rewrite (pc_fun _ _ v' v Hv' Hv). exact Hc.
Qed.

(** A session *)
Definition commands : list command := [Step 4098 None; Stepi; Break 4101 None; Break 4104 None; Continue; Delete 4104].
Lemma session_tame : tame (xenv P) (nops P) (Ideal (code 8000) (at_ip 4096) []) commands.
Proof.
  cbn [tame commands i_mem i_regs i_breakpoints app]. split.
  { split; [apply code_settable; [lia|intros b m []]|]. split; [intros (an & [] & _)|]. split.
    - apply nops_quiet. intros b m [[= <- <-]|[]]. reflexivity.
    - intros k r v _ _ ([b m] & [[= <- <-]|[]] & C). unfold in_range in C. cbn in C. lia. }
  intros i1 H1. inversion H1; subst. match goal with H : reaches _ _ _ _ _ _ _ |- _ => pose proof (reaches_code _ _ _ _ _ _ H) as -> end. cbn [tame i_mem i_regs i_breakpoints]. split.
  { split; [intros v _ (an & [] & _)|]. apply nops_calm. intros v _ (an & [] & _). }
  intros i2 H2. inversion H2; subst. match goal with H : nops _ _ _ _ _ |- _ => destruct H as [-> _] end. cbn [tame i_mem i_regs i_breakpoints]. split; [apply code_settable; [lia|intros b m []]|].
  intros i3 H3. inversion H3; subst; [|match goal with H : covered _ _ |- _ => destruct H as (an & [] & _) end]. cbn [tame i_mem i_regs i_breakpoints app]. split.
  { apply code_settable; [lia|]. intros b m [[= <- <-]|[]]. right. right. cbn. lia. }
  intros i4 H4. inversion H4; subst; [|match goal with H : covered _ _ |- _ => destruct H as ([b m] & [[= <- <-]|[]] & C) end; unfold in_range in C; cbn in C; lia].
  cbn [tame i_mem i_regs i_breakpoints app]. split; [apply nops_quiet; intros b m [[= <- <-]|[[= <- <-]|[]]]; reflexivity|].
  intros i5 _. split; [exact I|]. intros i6 _. exact I.
Qed.

Ltac uncovered := intros v Hv; let Hf := fresh in
  match type of Hv with pc _ ?r v => match goal with |- ~ covered ?l v => assert (exists w, pc P r w /\ ~ covered l w) as (w & Hw & Hf);
    [eexists; split; [at_pc|intros ([b m] & Hi & C); cbn in Hi; unfold in_range in C; decompose [or] Hi; try contradiction; repeat match goal with H : (_, _) = (_, _) |- _ => injection H as <- <- end; vm_compute in C; destruct C; try congruence; lia]
    |replace v with w by exact (pc_fun P _ w v Hw Hv); exact Hf] end end.
Lemma nop n v : 4096 <= v < n -> n <= 8192 -> pc P (at_ip v) v -> past_trap P (at_ip v) (at_ip (v + 1)) -> nops P (code n) (at_ip v) (code n) (at_ip (v + 1)).
Proof.
  intros Hv Hn Hp Hpast. split; [reflexivity|]. exists v. split; [exact Hp|]. split; [|exact Hpast]. cbn.
  replace (4096 <=? v) with true by lia. replace (v <? 8192) with true by lia. replace (v <? n) with true by lia. reflexivity.
Qed.
Ltac run1 v := eapply RThere; [uncovered|apply (nop 8000 v); [lia|lia|at_pc|past]|]; change (v + 1) with ltac:(let x := eval vm_compute in (v + 1) in exact x).
Lemma session_ideal : ideals (xenv P) (nops P) (Ideal (code 8000) (at_ip 4096) []) commands (Ideal (code 8000) (at_ip 4101) []).
Proof.
  eapply ICons; [apply IStep with (k1 := code 8000) (r1 := at_ip 4098); [run1 4096; run1 4097; apply RHere|at_pc]|].
  eapply ICons; [apply IStepi with (k1 := code 8000) (r1 := at_ip 4099); apply (nop 8000 4098); [lia|lia|at_pc|past]|].
  eapply ICons; [apply IBreak; intros (an & [] & _)|].
  eapply ICons; [apply IBreak; intros ([b m] & [[= <- <-]|[]] & C); unfold in_range in C; cbn in C; lia|].
  eapply ICons; [apply IContinue with (k1 := code 8000) (r1 := at_ip 4101) (an := (4101, 1)); [run1 4099; run1 4100; apply RHere|now left|at_pc]|].
  eapply ICons; [apply IDelete with (an := (4104, 1)); [left; reflexivity|unfold in_range; cbn; lia]|]. apply INil.
Qed.
Lemma session_runs : exists st', session (xenv P) good_kernel (nops P) (state 8000 4096) commands st' /\
  pc P (r_regs (b_regs st')) 4101 /\ (forall bp, ~ live st' bp) /\ forall x, k_byte (s_mem (b_mem st')) x = k_byte (code 8000) x.
Proof.
  destruct (complete (xenv P) good_kernel (nops P) (state 8000 4096) commands _ (fresh_state 8000 4096 ltac:(vm_compute; reflexivity)) session_tame session_ideal)
    as (st' & S & I1 & I2 & I3 & I4 & I5). exists st'. split; [exact S|]. split; [rewrite I1; at_pc|]. split.
  - intros bp L. assert (In (bp_address bp, bp_size bp) []) as H by (apply I4; eauto). exact H.
  - intros x. apply I2. intros (an & [] & _).
Qed.

(** ** What goes wrong *)
(** a stop inside a breakpoint of two bytes *)
Lemma inside_strays : strays (xenv P) good_kernel (nops P) (state 4101 4101) [Break 4100 (Some 2); Continue].
Proof.
  eexists. split.
  - eapply SCons; [apply DBreak|]. eapply SCons; [|apply SNil]. apply DContinue with (r := at_ip 4102). apply CTrap; [|past].
    exists 4101. split; [at_pc|vm_compute; reflexivity].
  - intros k R. match type of R with reaches _ _ _ _ _ _ ?x => set (r' := x) in R end. assert (pc P r' 4100) as Hp by at_pc. clearbody r'.
    cbn [state b_mem b_regs r_regs s_mem fresh e_p xenv prefix_env] in R. inversion R as [|k0 r0 k1 r1 k2 r2 Hn X R' E1 E2 E3 E4]; subst.
    + assert (pc P (at_ip 4101) 4101) as Hq by at_pc. pose proof (pc_fun _ _ _ _ Hp Hq). discriminate.
    + destruct X as (_ & v & Hv & Hb & _). assert (pc P (at_ip 4101) 4101) as Hq by at_pc. rewrite (pc_fun _ _ _ _ Hv Hq) in Hb. vm_compute in Hb. discriminate.
Qed.
(** a single step on a breakpoint *)
Lemma stepi_strays : strays (xenv P) good_kernel (nops P) (state 4096 4096) [Break 4096 None; Stepi].
Proof.
  eexists. split.
  - eapply SCons; [apply DBreak|]. eapply SCons; [|apply SNil]. apply DStepi with (r := at_ip 4097). apply OneTrap; [|past].
    exists 4096. split; [at_pc|vm_compute; reflexivity].
  - intros k R. match type of R with reaches _ _ _ _ _ _ ?x => set (r' := x) in R end. assert (pc P r' 4097) as Hp by at_pc. clearbody r'.
    cbn [state b_mem b_regs r_regs s_mem fresh e_p xenv prefix_env] in R. inversion R as [|k0 r0 k1 r1 k2 r2 Hn X R' E1 E2 E3 E4]; subst.
    + assert (pc P (at_ip 4096) 4096) as Hq by at_pc. pose proof (pc_fun _ _ _ _ Hp Hq). discriminate.
    + destruct X as (_ & v & Hv & Hb & _). assert (pc P (at_ip 4096) 4096) as Hq by at_pc. rewrite (pc_fun _ _ _ _ Hv Hq) in Hb. vm_compute in Hb. discriminate.
Qed.
(** a step that is stopped by another breakpoint *)
Lemma step_strays : strays (xenv P) good_kernel (nops P) (state 4096 4096) [Break 4096 None; Step 4100 None].
Proof.
  eexists. split.
  - eapply SCons; [apply DBreak|]. eapply SCons; [|apply SNil]. apply DStep with (r := at_ip 4097). apply CTrap; [|past].
    exists 4096. split; [at_pc|vm_compute; reflexivity].
  - intros k R. match type of R with reaches _ _ _ _ _ _ ?x => set (r' := x) in R end. assert (pc P r' 4100) as Hp by at_pc. clearbody r'.
    cbn [state b_mem b_regs r_regs s_mem fresh e_p xenv prefix_env] in R. inversion R as [|k0 r0 k1 r1 k2 r2 Hn X R' E1 E2 E3 E4]; subst.
    + assert (pc P (at_ip 4096) 4096) as Hq by at_pc. pose proof (pc_fun _ _ _ _ Hp Hq). discriminate.
    + destruct X as (_ & v & Hv & Hb & _). assert (pc P (at_ip 4096) 4096) as Hq by at_pc. rewrite (pc_fun _ _ _ _ Hv Hq) in Hb. vm_compute in Hb. discriminate.
Qed.
