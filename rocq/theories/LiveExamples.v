(** * LiveExamples: a tiny program that gets signals. *)
From Coq Require Import ZArith List Ascii String Bool Lia.
From Verif Require Import PyBase Platform CallModel MemModel MemSpec MemExamples StructModel RegModel RegSpec RegFinal BreakModel BreakSpec BreakFinal SessionModel SessionSpec
  SessionProofs SessionExamples LinkSpec.
From Verif Require Import SigModel DbgModel PyEval GdbModel EffectSpec LinkExamples LiveSpec.
Import ListNotations.
Open Scope Z_scope.

Ltac plain := apply SPlain; [|intros ? ?; discriminate].
Ltac plain_cons w := apply JCons with (w1 := w); [|plain].

(** ** A signal that is delivered
    Signal 10 arises at 4097; its handler goes back to 4096. *)
Definition again : signals := Signals (fun s k r => s = 10 /\ pc P r 4097) (fun s k r k1 r1 => k1 = k /\ zlen r1 = zlen r /\ pc P r1 4096).
Definition live_env (h : history) (c : gcall) : ans :=
  match c with
  | CWaitSignals => AEvent (signal (match reported h with [] => 10 | _ => SIGTRAP end))
  | _ => tiny_env h c
  end.
Definition hit_state : bstate := stopped_with bp_state (s_mem (b_mem bp_state)) (at_ip 4097).
Definition handler_state : bstate := stopped_with hit_state (s_mem (b_mem bp_state)) (at_ip 4096).
Definition trap_state : bstate := stopped_with handler_state (s_mem (b_mem bp_state)) (at_ip 4099).
Definition seen_state : bstate := with_regs trap_state (fst (getInstrPointer good_kernel P (b_regs trap_state))).
Definition final_state : bstate := fst (desinstall (xenv P) good_kernel 0 true seen_state).

Lemma live_ran : ran P (nops P) (s_mem (b_mem bp_state)) (at_ip 4096) (s_mem (b_mem bp_state)) (at_ip 4097).
Proof.
  eapply NRun; [| |apply NHere].
  - intros (w & Hw & Ht). assert (pc P (at_ip 4096) 4096) as Hp by at_pc. rewrite (pc_fun P _ w 4096 Hw Hp) in Ht. vm_compute in Ht. discriminate.
  - split; [reflexivity|]. exists 4096. split; [at_pc|]. split; [vm_compute; reflexivity|past].
Qed.
Lemma live_comes k : comes again 10 k (at_ip 4097).
Proof. split; [discriminate|]. split; [discriminate|]. split; [reflexivity|at_pc]. Qed.
Definition live_lines : list GdbModel.command := map dispatch [T "break 4098"; T "cont"; T "cont"].
Lemma live_typed : exists g st', typed_s (xenv P) good_kernel (nops P) again linux_signals false py_eval live_env tiny_start (World (state 8000 4096) Stopped)
  live_lines [Break 4098 None; Continue; Continue] g (World st' Stopped) /\ delivered (g_hist g) = [10] /\ pc P (r_regs (b_regs st')) 4098 /\ b_dict st' = [].
Proof.
  eexists _, final_state. split; [|split; [shelve|split; [at_pc|vm_compute; reflexivity]]].
  change [Break 4098 None; Continue; Continue] with ([Break 4098 None] ++ [Continue] ++ [Continue] ++ []). unfold live_lines. cbn [map].
  eapply ZCons with (w1 := World bp_state Stopped) (h := [(CLog (LNewBreakpoint 0), AUnit); (CCreateBreakpoint 0 4098 None, AObj (Some O))]);
    [exact I|left; eexists; vm_compute; reflexivity|reflexivity| | |].
  { eapply JCons; [eapply JCons; [constructor|]|plain; apply WElse; exact I]. plain. apply (WCreate _ _ _ _ _ _ _ (Ok O)). apply pair_snd. vm_compute. reflexivity. }
  { eapply MBreak; [vm_compute; reflexivity|cbn; auto]. }
  eapply ZCons with (w1 := World hit_state Stopped)
    (h := [(CLog (LInterrupted 0 10), AUnit); (CDisplay (signal 10), AUnit); (CWaitSignals, AEvent (signal 10)); (CCont 0 0, AUnit); (CClear 0, AUnit); (CProcesses, AProcs [O])]);
    [exact I|left; eexists; vm_compute; reflexivity|reflexivity| |constructor|].
  { plain_cons (World hit_state Stopped); [|apply WElse; exact I]. plain_cons (World hit_state Stopped); [|apply WElse; exact I].
    apply JCons with (w1 := World bp_state Running); [|apply SSignal; [exact live_ran|apply live_comes]].
    plain_cons (World bp_state Stopped); [|apply WCont]. plain_cons (World bp_state Stopped); [|apply WElse; exact I]. plain_cons (World bp_state Stopped); [constructor|apply WProcesses]. }
  eapply ZCons with (w1 := World final_state Stopped)
    (h := [(CDesinstall 0 true, AUnit); (CLog (LStopped 0), AUnit); (CFindBreakpoint 0 4098, AObj (Some O)); (CGetIP 0, AInt 4099);
           (CWaitSignals, AEvent (signal SIGTRAP)); (CCont 0 10, AUnit); (CLog (LSend 10 0), AUnit); (CClear 0, AUnit); (CProcesses, AProcs [O])]);
    [exact I|left; eexists; vm_compute; reflexivity|reflexivity| |constructor|constructor].
  plain_cons (World seen_state Stopped); [plain_cons (World seen_state Stopped); [plain_cons (World seen_state Stopped); [plain_cons (World trap_state Stopped)|]|]|].
  - plain_cons (World handler_state Running); [|apply WTrap; [now left|exact tiny_continued]].
    apply JCons with (w1 := World hit_state Stopped); [|apply SDeliver; [discriminate|]; split; [reflexivity|]; split; [vm_compute; reflexivity|at_pc]].
    plain_cons (World hit_state Stopped); [|apply WElse; exact I]. plain_cons (World hit_state Stopped); [|apply WElse; exact I]. plain_cons (World hit_state Stopped); [constructor|apply WProcesses].
  - apply (WPointer (xenv P) good_kernel (nops P) trap_state _ (Ok 4099)). apply pair_snd. vm_compute. reflexivity.
  - assert (findBreakpoint 4098 seen_state = Some O) as <- by (vm_compute; reflexivity). apply WFind.
  - apply WElse. exact I.
  - apply (WRemove _ _ _ _ _ _ _ (Ok tt)). apply pair_snd. vm_compute. reflexivity.
  Unshelve. vm_compute. reflexivity.
Qed.
Lemma again_undisturbed r l : (forall b m, In (b, m) l -> m = 1) -> undisturbed (xenv P) (nops P) again (code 8000) r l.
Proof. intros Hl. split; [now apply nops_quiet|]. intros k1 r1 _ s k' _ H. exact H. Qed.
Lemma again_smooth s l k r : smooth (xenv P) (delivers again s) l k r.
Proof.
  split; [|intros k1 r1 (-> & Hz & _); split; [exact Hz|]; auto].
  intros k' B. split.
  - intros k1 r1 (-> & H). exists k'. split; [now split|]. split; [exact B|intros x _; reflexivity].
  - intros k1 r1 (-> & H). exists k. split; [now split|]. split; [exact B|split; intros x _; reflexivity].
Qed.
Lemma proceeds_code i o c i' o' d n : proceeds (xenv P) (nops P) again i o c i' o' d n -> i_mem i' = i_mem i.
Proof.
  induction 1 as [i o c i' _ H|k r l k1 r1 s R C|k r l a size k1 r1 s R C|k r l s C|k r l s k1 r1 i' o' d n (-> & _) H IH]; cbn [i_mem]; auto.
  - inversion H; subst; cbn [i_mem]; try reflexivity; try (match goal with H : reaches _ _ _ _ _ _ _ |- _ => exact (reaches_code _ _ _ _ _ _ H) end). match goal with H : nops _ _ _ _ _ |- _ => exact (proj1 H) end.
  - exact (reaches_code _ _ _ _ _ _ R).
  - exact (reaches_code _ _ _ _ _ _ R).
Qed.
Lemma proceeds_ranges i o i' o' d n : proceeds (xenv P) (nops P) again i o Continue i' o' d n -> incl (i_breakpoints i') (i_breakpoints i).
Proof.
  remember Continue as c. induction 1 as [i o c i' _ H|k r l k1 r1 s R C|k r l a size k1 r1 s R C|k r l s C|k r l s k1 r1 i' o' d n _ H IH]; try discriminate Heqc; cbn [i_breakpoints]; auto using incl_refl.
  subst c. inversion H; subst; cbn [i_breakpoints]; intros x Hx; apply filter_In in Hx; tauto.
Qed.
Lemma continue_orderly r o l : (forall b m, In (b, m) l -> m = 1) -> forall cs, Forall (eq Continue) cs -> orderly (xenv P) (nops P) again (Ideal (code 8000) r l) o cs.
Proof.
  intros Hl cs. revert r o l Hl. induction cs as [|c cs IH]; intros r o l Hl F; [exact I|]. inversion F as [|? ? <- F']; subst. cbn [orderly]. split.
  - destruct o as [s|]; [|now apply again_undisturbed]. split; [apply again_smooth|]. intros k1 r1 (-> & _). now apply again_undisturbed.
  - intros i' o' d n H. pose proof (proceeds_code _ _ _ _ _ _ _ H) as Hk. pose proof (proceeds_ranges _ _ _ _ _ _ H) as Hi. destruct i' as [k' r' l']. cbn in Hk, Hi. subst k'. apply IH; [|exact F']. intros b m Hb. exact (Hl b m (Hi _ Hb)).
Qed.
Lemma live_orderly : orderly (xenv P) (nops P) again (Ideal (code 8000) (at_ip 4096) []) None [Break 4098 None; Continue; Continue].
Proof.
  cbn [orderly]. split.
  - cbn [tame i_mem i_regs i_breakpoints app]. split; [apply code_settable; [lia|intros b m []]|]. intros; exact I.
  - intros i' o' d n H. inversion H as [i o c i1 _ X| | | |]; subst. inversion X; subst; [|match goal with H : covered _ _ |- _ => destruct H as (an & [] & _) end].
    refine (continue_orderly (at_ip 4096) None ([] ++ [(4098, break_size (xenv P) None)]) _ [Continue; Continue] _); [|repeat constructor]. intros b m [[= <- <-]|[]]. reflexivity.
Qed.

(** ** A signal that is lost
    The program gets signal 10; the user steps one instruction, which is interrupted by signal 12. *)
Definition anywhere : signals := Signals (fun s k r => s = 12 \/ s = 10 /\ pc P r 4097)
  (fun s k r k1 r1 => k1 = k /\ (s = 12 -> r1 = r) /\ (s = 10 -> exists v, pc P r v /\ pc P r1 (2 * v))).
Definition lost_env (h : history) (c : gcall) : ans :=
  match c with
  | CWaitSignals => AEvent (signal 10)
  | CWait _ _ => ARaise (XEvent (signal 12))
  | _ => tiny_env h c
  end.
Definition start : bstate := state 4110 4096.
Definition first_state : bstate := stopped_with start (code 4110) (at_ip 4097).
Lemma first_ran : ran P (nops P) (code 4110) (at_ip 4096) (code 4110) (at_ip 4097).
Proof.
  eapply NRun; [| |apply NHere].
  - intros (w & Hw & Ht). assert (pc P (at_ip 4096) 4096) as Hp by at_pc. rewrite (pc_fun P _ w 4096 Hw Hp) in Ht. vm_compute in Ht. discriminate.
  - apply (nop 4110 4096); [lia|lia|at_pc|past].
Qed.
Lemma first_comes k : comes anywhere 10 k (at_ip 4097).
Proof. split; [discriminate|]. split; [discriminate|]. right. split; [reflexivity|at_pc]. Qed.
Lemma twelve_comes k r : comes anywhere 12 k r.
Proof. split; [discriminate|]. split; [discriminate|]. now left. Qed.
Lemma first_explained : explained_s (xenv P) good_kernel (nops P) anywhere (World start Stopped)
  [(CLog (LInterrupted 0 10), AUnit); (CDisplay (signal 10), AUnit); (CWaitSignals, AEvent (signal 10)); (CCont 0 0, AUnit); (CClear 0, AUnit); (CProcesses, AProcs [O])] (World first_state Stopped).
Proof.
  plain_cons (World first_state Stopped); [|apply WElse; exact I]. plain_cons (World first_state Stopped); [|apply WElse; exact I].
  apply JCons with (w1 := World start Running); [|apply SSignal; [exact first_ran|apply first_comes]].
  plain_cons (World start Stopped); [|apply WCont]. plain_cons (World start Stopped); [|apply WElse; exact I]. plain_cons (World start Stopped); [constructor|apply WProcesses].
Qed.
Lemma seen_same st : seen st st.
Proof. repeat split; auto. Qed.
Lemma signal_lost : exists E K exec G ns dis eval env g st ks l g' st', fresh_process E K st /\ g_process g = O /\ g_last g = [] /\ g_hist g = [] /\
  typed_s E K exec G ns dis eval env g (World st Stopped) ks l g' (World st' Stopped) /\ reported (g_hist g') = [10; 12] /\ delivered (g_hist g') = [] /\ g_last g' = [(O, 12)].
Proof.
  exists (xenv P), good_kernel, (nops P), anywhere, linux_signals, false, py_eval, lost_env, tiny_start, start, (map dispatch [T "cont"; T "stepi"]), ([Continue] ++ [Stepi] ++ []).
  eexists _, first_state. split; [apply fresh_state; vm_compute; reflexivity|]. split; [reflexivity|]. split; [reflexivity|]. split; [reflexivity|]. split; [|split; [shelve|split; [shelve|shelve]]].
  cbn [map].
  eapply ZCons; [exact I|left; eexists; vm_compute; reflexivity| |exact first_explained|constructor|]; [reflexivity|].
  eapply ZCons with (w1 := World first_state Stopped) (h := [(CLog (LInterrupted 0 12), AUnit); (CDisplay (signal 12), AUnit); (CWait 0 SIGTRAP, ARaise (XEvent (signal 12))); (CStep 0, AUnit); (CDumpCode 0 None None false, AUnit)]);
    [exact I|right; eexists _, 12, O; split; vm_compute; reflexivity|reflexivity| |constructor|constructor].
  plain_cons (World first_state Stopped); [|apply WElse; exact I]. plain_cons (World first_state Stopped); [|apply WElse; exact I].
  apply JCons with (w1 := World first_state Stepping); [|apply SSignalStepi, twelve_comes].
  plain_cons (World first_state Stopped); [|apply WStep]. plain_cons (World first_state Stopped); [constructor|apply WLook; [exact I|apply seen_same]].
  Unshelve. all: vm_compute; reflexivity.
Qed.

(** ** A signal that is delivered too late
    Without debugger signal 10 is delivered at 4097 only; the user steps one instruction before they continue. *)
Definition late_env (h : history) (c : gcall) : ans :=
  match c with
  | CWaitSignals => AEvent (signal (match reported h with [] => 10 | _ => 12 end))
  | CWait _ _ => AEvent (signal SIGTRAP)
  | _ => tiny_env h c
  end.
Definition second_state : bstate := stopped_with first_state (code 4110) (at_ip 4098).
Definition late_state : bstate := stopped_with second_state (code 4110) (at_ip 8196).
Lemma lives_where k r l k' r' : lives (nops P) anywhere k r l k' r' -> k = code 4110 -> (exists v, pc P r v /\ (4096 <= v <= 4110 \/ v = 8194)) ->
  exists v, pc P r' v /\ (4096 <= v <= 4110 \/ v = 8194).
Proof.
  induction 1 as [k r|k r k1 r1 l k2 r2 X L IH|k r s k1 r1 l k2 r2 (_ & _ & A) D L IH]; intros -> V; [exact V| |].
  - destruct X as (-> & v & Hv & Hb & Hp). apply IH; [reflexivity|]. destruct Hp as (o & sz & w & _ & Hw & Hn & _). exists (w + 1). split; [exact Hn|]. pose proof (pc_fun P _ _ _ Hw Hv) as ->.
    destruct V as (v' & Hv' & V). pose proof (pc_fun P _ _ _ Hv' Hv) as ->. cbn in Hb. destruct V as [V| ->]; [|discriminate Hb].
    destruct (v <? 4110) eqn:Ev; [lia|]. destruct ((4096 <=? v) && (v <? 8192)); [|discriminate]. vm_compute in Hb. discriminate Hb.
  - destruct D as (-> & D1 & D2). apply IH; [reflexivity|]. destruct A as [-> |(-> & Hp)]; [now rewrite D1|]. destruct (D2 eq_refl) as (v & Hv & H1). pose proof (pc_fun P _ _ _ Hv Hp) as ->. exists 8194. split; [exact H1|now right].
Qed.
Lemma signal_late : exists E K exec G ns dis eval env g st ks l g' st', fresh_process E K st /\ g_process g = O /\ g_last g = [] /\ g_hist g = [] /\
  typed_s E K exec G ns dis eval env g (World st Stopped) ks l g' (World st' Stopped) /\ delivered (g_hist g') = [10] /\
  forall d k, ~ lives exec G (s_mem (b_mem st)) (r_regs (b_regs st)) d k (r_regs (b_regs st')).
Proof.
  exists (xenv P), good_kernel, (nops P), anywhere, linux_signals, false, py_eval, late_env, tiny_start, start, (map dispatch [T "cont"; T "stepi"; T "cont"]), ([Continue] ++ [Stepi] ++ [Continue] ++ []).
  eexists _, late_state. split; [apply fresh_state; vm_compute; reflexivity|]. split; [reflexivity|]. split; [reflexivity|]. split; [reflexivity|]. split; [|split; [shelve|]].
  2:{ intros d k L. assert (pc P (at_ip 8196) 8196) as Hp by at_pc. apply lives_where in L; [|reflexivity|exists 4096; split; [at_pc|lia]]. destruct L as (v & Hv & V). change (r_regs (b_regs late_state)) with (at_ip 8196) in Hv. rewrite (pc_fun P _ _ _ Hv Hp) in V. lia. }
  cbn [map].
  eapply ZCons; [exact I|left; eexists; vm_compute; reflexivity| |exact first_explained|constructor|]; [reflexivity|].
  eapply ZCons with (w1 := World second_state Stopped); [exact I|left; eexists; vm_compute; reflexivity| | |constructor|].
  { cbn [g_hist]. match goal with |- ?a :: ?b :: ?c :: ?t = ?h ++ _ => instantiate (1 := [a; b; c]); reflexivity end. }
  { apply JCons with (w1 := World first_state Stepping).
    - plain_cons (World first_state Stopped); [|apply WStep]. plain_cons (World first_state Stopped); [constructor|apply WLook; [exact I|apply seen_same]].
    - plain. apply WStepped; [now right|]. apply OneRun; [|apply (nop 4110 4097); [lia|lia|at_pc|past]].
      intros (w & Hw & Ht). assert (pc P (at_ip 4097) 4097) as Hp by at_pc. rewrite (pc_fun P _ w 4097 Hw Hp) in Ht. vm_compute in Ht. discriminate. }
  eapply ZCons with (w1 := World late_state Stopped)
    (h := [(CLog (LInterrupted 0 12), AUnit); (CDisplay (signal 12), AUnit); (CWaitSignals, AEvent (signal 12)); (CCont 0 10, AUnit); (CLog (LSend 10 0), AUnit); (CClear 0, AUnit); (CProcesses, AProcs [O])]);
    [exact I|left; eexists; vm_compute; reflexivity|reflexivity| |constructor|constructor].
  plain_cons (World late_state Stopped); [|apply WElse; exact I]. plain_cons (World late_state Stopped); [|apply WElse; exact I].
  apply JCons with (w1 := World late_state Running); [|change late_state with (stopped_with late_state (code 4110) (at_ip 8196)) at 2; apply SSignal; [apply NHere|apply twelve_comes]].
  apply JCons with (w1 := World second_state Stopped); [|apply SDeliver; [discriminate|]; split; [reflexivity|]; split; [discriminate|]; intros _; exists 4098; split; at_pc].
  plain_cons (World second_state Stopped); [|apply WElse; exact I]. plain_cons (World second_state Stopped); [|apply WElse; exact I]. plain_cons (World second_state Stopped); [constructor|apply WProcesses].
  Unshelve. vm_compute. reflexivity.
Qed.
