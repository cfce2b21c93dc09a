(** * FateExamples: tiny programs that end. *)
From Coq Require Import ZArith List Ascii String Bool Lia.
From Verif Require Import PyBase Platform CallModel MemModel MemSpec MemExamples StructModel RegModel RegSpec RegFinal BreakModel BreakSpec BreakFinal SessionModel SessionSpec
  SessionProofs SessionExamples LinkSpec.
From Verif Require Import SigModel DbgModel PyEval GdbModel EffectSpec LinkExamples LiveSpec LiveExamples FateSpec.
Import ListNotations.
Open Scope Z_scope.

(** ** A program that a signal kills
    Signal 10 arises at 4097 and kills the program, which would end with 0 at 4100. *)
Definition deadly : fates := Fates (fun k r e => pc P r 4100 /\ e = Exited 0) (fun s k r => s = 10).
Definition deadly_env (h : history) (c : gcall) : ans :=
  match c with
  | CWaitSignals => match reported h with [] => AEvent (signal 10) | _ => ARaise (XEvent (exit_event (Killed 10))) end
  | CProcesses => match h with (CLog (LEvent _), _) :: _ => AProcs [] | _ => AProcs [O] end
  | _ => tiny_env h c
  end.
Lemma deadly_typed : exists g, typed_s (xenv P) good_kernel (nops P) again linux_signals false py_eval deadly_env tiny_start (World (state 8000 4096) Stopped)
    (map dispatch [T "break 4098"; T "cont"]) [Break 4098 None; Continue] g (World hit_state Stopped) /\
  exists g1, last_command (xenv P) good_kernel (nops P) again deadly linux_signals false py_eval deadly_env g hit_state (dispatch (T "cont")) [Continue] O (Some 10) None g1 /\ delivered (g_hist g1) = [10].
Proof.
  eexists. split.
  - change [Break 4098 None; Continue] with ([Break 4098 None] ++ [Continue] ++ []). cbn [map].
    eapply ZCons with (w1 := World bp_state Stopped) (h := [(CLog (LNewBreakpoint 0), AUnit); (CCreateBreakpoint 0 4098 None, AObj (Some O))]);
      [exact I|left; eexists; vm_compute; reflexivity|reflexivity| | |].
    { eapply JCons; [eapply JCons; [constructor|]|plain; apply WElse; exact I]. plain. apply (WCreate _ _ _ _ _ _ _ (Ok O)). apply pair_snd. vm_compute. reflexivity. }
    { eapply MBreak; [vm_compute; reflexivity|cbn; auto]. }
    eapply ZCons with (w1 := World hit_state Stopped)
      (h := [(CLog (LInterrupted 0 10), AUnit); (CDisplay (signal 10), AUnit); (CWaitSignals, AEvent (signal 10)); (CCont 0 0, AUnit); (CClear 0, AUnit); (CProcesses, AProcs [O])]);
      [exact I|left; eexists; vm_compute; reflexivity|reflexivity| |constructor|constructor].
    plain_cons (World hit_state Stopped); [|apply WElse; exact I]. plain_cons (World hit_state Stopped); [|apply WElse; exact I].
    apply JCons with (w1 := World bp_state Running); [|apply SSignal; [exact live_ran|apply live_comes]].
    plain_cons (World bp_state Stopped); [|apply WCont]. plain_cons (World bp_state Stopped); [|apply WElse; exact I]. plain_cons (World bp_state Stopped); [constructor|apply WProcesses].
  - eexists. split; [|shelve]. eexists _, [(CProcesses, AProcs []); (CLog (LEvent (exit_event (Killed 10))), AUnit); (CWaitSignals, ARaise (XEvent (exit_event (Killed 10)))); (CCont 0 10, AUnit);
      (CLog (LSend 10 0), AUnit); (CClear 0, AUnit); (CProcesses, AProcs [O])].
    split; [exact I|]. split; [vm_compute; reflexivity|]. split; [vm_compute; reflexivity|]. split; [reflexivity|]. split; [|constructor].
    apply QCons with (w1 := Gone); [|apply FNone]. apply QCons with (w1 := Gone); [|apply FElse; [exact I|discriminate]]. apply QCons with (w1 := Dying 10); [|apply FDies; now left].
    apply QCons with (w1 := Alive (World hit_state Stopped)); [|apply FFatal; [discriminate|reflexivity]].
    apply QCons with (w1 := Alive (World hit_state Stopped)); [|apply FAlive; plain; apply WElse; exact I].
    apply QCons with (w1 := Alive (World hit_state Stopped)); [|apply FAlive; plain; apply WElse; exact I].
    apply QCons with (w1 := Alive (World hit_state Stopped)); [constructor|apply FAlive; plain; apply WProcesses].
  Unshelve. vm_compute. reflexivity.
Qed.
Lemma deadly_finale i o a : finale (xenv P) (nops P) again deadly i o a.
Proof.
  destruct i as [k r l]. destruct a; cbn; auto; try (intros k1 r1 _ e k' _ H; exact H).
  - destruct o as [s|]; [|intros k1 r1 _ e k' _ H; exact H]. split; [auto|]. intros k1 r1 _ k2 r2 _ e k' _ H. exact H.
  - intros e k' _ H. exact H.
Qed.

(** ** A program that ends otherwise
    Without debugger signal 10 is delivered at 4097 only; the user steps one instruction before they continue, and the program ends where it never goes. *)
Definition elsewhere_ends : fates := Fates (fun k r e => pc P r 8196 /\ e = Exited 2) (fun s k r => False).
Definition other_env (h : history) (c : gcall) : ans :=
  match c with
  | CWaitSignals => match reported h with [] => AEvent (signal 10) | _ => ARaise (XEvent (exit_event (Exited 2))) end
  | CWait _ _ => AEvent (signal SIGTRAP)
  | CProcesses => match h with (CLog (LEvent _), _) :: _ => AProcs [] | _ => AProcs [O] end
  | _ => tiny_env h c
  end.
Lemma ends_otherwise : exists E K exec G F ns dis eval env g st ks l g' st' k l1 id s c g1, fresh_process E K st /\ g_process g = O /\ g_last g = [] /\ g_hist g = [] /\
  typed_s E K exec G ns dis eval env g (World st Stopped) ks l g' (World st' Stopped) /\ last_command E K exec G F ns dis eval env g' st' k l1 id s c g1 /\
  forall d e, ~ finishes exec G F (s_mem (b_mem st)) (r_regs (b_regs st)) d e.
Proof.
  exists (xenv P), good_kernel, (nops P), anywhere, elsewhere_ends, linux_signals, false, py_eval, other_env, tiny_start, start, (map dispatch [T "cont"; T "stepi"]), ([Continue] ++ [Stepi] ++ []).
  eexists _, second_state, (dispatch (T "cont")), [Continue], O, None, (Some 2), _.
  split; [apply fresh_state; vm_compute; reflexivity|]. split; [reflexivity|]. split; [reflexivity|]. split; [reflexivity|]. split; [|split].
  - cbn [map].
    eapply ZCons; [exact I|left; eexists; vm_compute; reflexivity| |exact first_explained|constructor|]; [reflexivity|].
    eapply ZCons with (w1 := World second_state Stopped); [exact I|left; eexists; vm_compute; reflexivity| | |constructor|constructor].
    { cbn [g_hist]. match goal with |- ?a :: ?b :: ?c :: ?t = ?h ++ _ => instantiate (1 := [a; b; c]); reflexivity end. }
    apply JCons with (w1 := World first_state Stepping).
    + plain_cons (World first_state Stopped); [|apply WStep]. plain_cons (World first_state Stopped); [constructor|apply WLook; [exact I|apply seen_same]].
    + plain. apply WStepped; [now right|]. apply OneRun; [|apply (nop 4110 4097); [lia|lia|at_pc|past]].
      intros (w & Hw & Ht). assert (pc P (at_ip 4097) 4097) as Hp by at_pc. rewrite (pc_fun P _ w 4097 Hw Hp) in Ht. vm_compute in Ht. discriminate.
  - eexists _, [(CProcesses, AProcs []); (CLog (LEvent (exit_event (Exited 2))), AUnit); (CWaitSignals, ARaise (XEvent (exit_event (Exited 2)))); (CCont 0 10, AUnit);
      (CLog (LSend 10 0), AUnit); (CClear 0, AUnit); (CProcesses, AProcs [O])].
    split; [exact I|]. split; [vm_compute; reflexivity|]. split; [vm_compute; reflexivity|]. split; [reflexivity|]. split; [|constructor].
    apply QCons with (w1 := Gone); [|apply FNone]. apply QCons with (w1 := Gone); [|apply FElse; [exact I|discriminate]].
    apply QCons with (w1 := Alive (World late_state Running)); [|apply (FEnds _ _ _ _ _ _ (code 4110) (at_ip 8196)); [now left|apply NHere|split; [at_pc|reflexivity]]].
    apply QCons with (w1 := Alive (World second_state Stopped)); [|apply FAlive, SDeliver; [discriminate|]; split; [reflexivity|]; split; [discriminate|]; intros _; exists 4098; split; at_pc].
    apply QCons with (w1 := Alive (World second_state Stopped)); [|apply FAlive; plain; apply WElse; exact I].
    apply QCons with (w1 := Alive (World second_state Stopped)); [|apply FAlive; plain; apply WElse; exact I].
    apply QCons with (w1 := Alive (World second_state Stopped)); [constructor|apply FAlive; plain; apply WProcesses].
  - intros d e H. inversion H as [k r d1 k1 r1 e1 L (Hp & _)|k r d1 k1 r1 s L _ []]; subst. apply lives_where in L; [|reflexivity|exists 4096; split; [at_pc|lia]].
    destruct L as (v & Hv & V). rewrite (pc_fun P _ _ _ Hv Hp) in V. lia.
Qed.
