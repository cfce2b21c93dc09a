(** * LinkExamples: two commands typed at the tiny CPU of SessionExamples. *)
From Coq Require Import ZArith List Ascii String Bool Lia.
From Verif Require Import PyBase Platform CallModel MemModel MemSpec MemExamples StructModel RegModel RegSpec RegFinal BreakModel BreakSpec BreakFinal SessionModel SessionSpec
  SessionProofs SessionExamples LinkSpec.
From Verif Require Import SigModel DbgModel PyEval GdbModel EffectSpec.
Import ListNotations.
Open Scope Z_scope.

Definition tiny_env (h : history) (c : gcall) : ans :=
  match c with
  | CProcesses => AProcs [O]
  | CCreateBreakpoint _ _ _ | CFindBreakpoint _ _ => AObj (Some O)
  | CWaitSignals => AEvent (ProcessSignal SIGTRAP O)
  | CGetIP _ => AInt 4099
  | CMappings _ => AMaps []
  | _ => AUnit
  end.
Definition tiny_start : gstate := GState O [] [] None [].
Definition bp_state : bstate := fst (createBreakpoint (xenv P) 4098 None (state 8000 4096)).
Definition stop_state : bstate := stopped_with bp_state (s_mem (b_mem bp_state)) (at_ip 4099).
Definition end_state : bstate := fst (hit_breakpoint (xenv P) good_kernel stop_state).

Lemma tiny_continued : continued P (nops P) (s_mem (b_mem bp_state)) (at_ip 4096) (s_mem (b_mem bp_state)) (at_ip 4099).
Proof.
  assert (forall v, 4096 <= v < 4098 -> k_byte (s_mem (b_mem bp_state)) v = Some (z2b 0x90)) as Hb.
  { intros v Hv. assert (v = 4096 \/ v = 4097) as [-> | ->] by lia; vm_compute; reflexivity. }
  assert (forall v, 4096 <= v < 4098 -> pc P (at_ip v) v -> ~ at_trap P (s_mem (b_mem bp_state)) (at_ip v)) as Hn.
  { intros v Hv Hp (w & Hw & Ht). rewrite (pc_fun P _ w v Hw Hp), (Hb v Hv) in Ht. vm_compute in Ht. discriminate. }
  apply CRun with (k1 := s_mem (b_mem bp_state)) (r1 := at_ip 4097); [apply Hn; [lia|at_pc]| |].
  { split; [reflexivity|]. exists 4096. split; [at_pc|]. split; [apply Hb; lia|past]. }
  apply CRun with (k1 := s_mem (b_mem bp_state)) (r1 := at_ip 4098); [apply Hn; [lia|at_pc]| |].
  { split; [reflexivity|]. exists 4097. split; [at_pc|]. split; [apply Hb; lia|past]. }
  apply CTrap; [|past]. exists 4098. split; [at_pc|vm_compute; reflexivity].
Qed.
Lemma pair_snd {A B} (x : A * B) b : snd x = b -> x = (fst x, b).
Proof. destruct x. cbn. now intros ->. Qed.
Definition typed_lines : list GdbModel.command := map dispatch [T "break 4098"; T "cont"; T "print 4098"].
Lemma tiny_typed : exists g st', typed (xenv P) good_kernel (nops P) linux_signals false py_eval tiny_env tiny_start (World (state 8000 4096) Stopped)
  typed_lines [Break 4098 None; Continue] g (World st' Stopped) /\ pc P (r_regs (b_regs st')) 4098 /\ b_dict st' = [].
Proof.
  eexists _, end_state. split; [|split; [at_pc|vm_compute; reflexivity]].
  change [Break 4098 None; Continue] with ([Break 4098 None] ++ [Continue] ++ [] ++ []). unfold typed_lines. cbn [map].
  eapply YCons with (w1 := World bp_state Stopped) (h := [(CLog (LNewBreakpoint 0), AUnit); (CCreateBreakpoint 0 4098 None, AObj (Some O))]);
    [exact I|vm_compute; reflexivity|reflexivity| | |].
  { eapply HCons; [eapply HCons; [constructor|]|apply WElse; exact I]. apply (WCreate _ _ _ _ _ _ _ (Ok O)). apply pair_snd. vm_compute. reflexivity. }
  { eapply MBreak; [vm_compute; reflexivity|cbn; auto]. }
  eapply YCons with (w1 := World end_state Stopped)
    (h := [(CDesinstall 0 true, AUnit); (CLog (LStopped 0), AUnit); (CFindBreakpoint 0 4098, AObj (Some O)); (CGetIP 0, AInt 4099);
           (CWaitSignals, AEvent (ProcessSignal SIGTRAP O)); (CCont 0 0, AUnit); (CClear 0, AUnit); (CProcesses, AProcs [O])]);
    [exact I|vm_compute; reflexivity|reflexivity| | |].
  { set (st1 := with_regs stop_state (fst (getInstrPointer good_kernel P (b_regs stop_state)))).
    apply HCons with (w1 := World st1 Stopped); [apply HCons with (w1 := World st1 Stopped); [apply HCons with (w1 := World st1 Stopped); [apply HCons with (w1 := World stop_state Stopped)|]|]|].
    - eapply HCons; [eapply HCons; [eapply HCons; [eapply HCons; [constructor|apply WProcesses]|apply WElse; exact I]|apply WCont]|].
      apply WTrap; [now left|exact tiny_continued].
    - apply (WPointer (xenv P) good_kernel (nops P) stop_state _ (Ok 4099)). apply pair_snd. vm_compute. reflexivity.
    - assert (findBreakpoint 4098 st1 = Some O) as <- by (vm_compute; reflexivity). apply WFind.
    - apply WElse. exact I.
    - apply (WRemove _ _ _ _ _ _ _ (Ok tt)). unfold end_state, hit_breakpoint.
      change (e_p (xenv P)) with P. cbn [is_powerpc p_cpu P linux_x86_64].
      rewrite (pair_snd (getInstrPointer good_kernel P (b_regs stop_state)) (Ok 4099)) by (vm_compute; reflexivity).
      fold st1. cbn [fst]. change (4099 - 1) with 4098. replace (findBreakpoint 4098 st1) with (Some O) by (vm_compute; reflexivity).
      destruct (desinstall (xenv P) good_kernel 0 true st1) as [st2 r] eqn:D. assert (r = Ok tt) as -> by (change r with (snd (st2, r)); rewrite <- D; vm_compute; reflexivity). reflexivity. }
  { constructor. }
  eapply YCons with (w1 := World end_state Stopped); [reflexivity|vm_compute; reflexivity| | | |constructor].
  { cbn [g_hist]. match goal with |- ?a :: ?b :: ?c :: ?t = ?h ++ _ => instantiate (1 := [a; b; c]); reflexivity end. }
  { repeat (eapply HCons); [constructor|..]; try (apply WElse; exact I). apply WLook; [exact I|repeat split; auto]. }
  { now apply MLook. }
Qed.
Lemma tiny_tame : tame (xenv P) (nops P) (Ideal (code 8000) (at_ip 4096) []) [Break 4098 None; Continue].
Proof.
  cbn [tame i_mem i_regs i_breakpoints app]. split; [apply code_settable; [lia|intros b m []]|].
  intros i1 H1. inversion H1; subst; [|match goal with H : covered _ _ |- _ => destruct H as (an & [] & _) end]. cbn [tame i_mem i_regs i_breakpoints app].
  split; [|intros i2 _; exact I]. apply nops_quiet. intros b m [[= <- <-]|[]]. reflexivity.
Qed.
