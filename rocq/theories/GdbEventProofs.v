From Coq Require Import ZArith List Ascii String Bool Lia Arith.
From Verif Require Import PyBase PyFacts PyInt Platform IntModel ToolsModel SigModel DbgModel MapModel TraceModel PyEval ExprModel GdbModel GdbSpec GdbProofs GdbProofs2 GdbCmdSpec GdbCmdProofs GdbEventSpec.
Import ListNotations.
Open Scope Z_scope.

Section Events.
  Context (p : platform) (ns : namespace) (dis : bool) (eval : text -> res pyval) (env : list (gcall * ans) -> gcall -> ans).
  Notation answers := (answers env).
  Notation run := (run p ns dis eval env).

  Lemma switches_to q st : does_and_switches (switchProcess q) st (tells_switch (g_process st) q) q (Ret tt).
  Proof.
    unfold does_and_switches, switchProcess, tells_switch, gbind, gget. destruct (Nat.eq_dec (g_process st) q) as [E|E].
    - rewrite (proj2 (Nat.eqb_eq _ _) E). exists st. refine (conj eq_refl (conj eq_refl (conj E _))). repeat split.
    - rewrite (proj2 (Nat.eqb_neq _ _) E). eexists. split; [reflexivity|]. repeat split.
  Qed.
  Lemma then_switches {A B} (m : GM A) (f : A -> GM B) st l1 l2 a q r : does m st l1 (Ret a) ->
    (forall st', same st st' -> does_and_switches (f a) st' l2 q r) -> does_and_switches (gbind m f) st (l1 ++ l2) q r.
  Proof.
    intros (st1 & E1 & H1 & S1) F. destruct (F _ S1) as (st2 & E2 & H2 & P2 & R2). exists st2. unfold gbind. rewrite E1. split; [exact E2|].
    split; [rewrite H2, H1, rev_app_distr, app_assoc; reflexivity|]. split; [exact P2|]. destruct S1 as (A1 & A2 & A3 & A4), R2 as (B1 & B2 & B3). unfold rest_same. now rewrite B1, B2, B3, A2, A3, A4.
  Qed.
  Lemma next_does st l : answers CProcesses (AProcs l) ->
    does_and_switches (nextProcess env) st (next_one (g_process st) l) (first_of (g_process st) l) (Ret tt).
  Proof.
    intros H. unfold nextProcess, next_one. change (?a :: ?b) with ([a] ++ b). eapply then_switches; [apply does_procs, H|]. intros st1 S1.
    destruct l as [|q l]; cbn [first_of].
    - exists st1. split; [reflexivity|]. split; [unfold tells_switch; destruct (Nat.eq_dec (g_process st) (g_process st)); [reflexivity|congruence]|]. destruct S1 as (A & B). split; [exact A|repeat split].
    - destruct S1 as (A & B). rewrite <- A. apply switches_to.
  Qed.
  Lemma handle_exit st id s c l : answers CProcesses (AProcs l) ->
    does_and_switches (handle env (XEvent (ProcessExit id s c))) st (line (LEvent (ProcessExit id s c)) :: next_one (g_process st) l) (first_of (g_process st) l) (Ret tt).
  Proof.
    intros H. cbn [handle]. change (?a :: ?b) with ([a] ++ b). eapply then_switches; [apply does_log|]. intros st1 (A & B). rewrite <- A. apply next_does, H.
  Qed.
  Lemma handle_new st id : does (handle env (XEvent (NewProcessEvent id))) st [line (LNew id)] (Ret tt).
  Proof. apply does_log. Qed.
  Lemma handle_signal st id s : answers (CDisplay (ProcessSignal s id)) AUnit ->
    exists st', handle env (XEvent (ProcessSignal s id)) st = (st', Ret tt) /\
      g_hist st' = rev ((CDisplay (ProcessSignal s id), AUnit) :: tells_switch (g_process st) id ++ [line (LInterrupted id s)]) ++ g_hist st /\
      g_process st' = id /\ g_last st' = dset Nat.eqb id s (g_last st) /\ g_follow st' = g_follow st /\ g_previous st' = g_previous st.
  Proof.
    intros H. cbn [handle]. unfold processSignal. destruct (does_unit env (CDisplay (ProcessSignal s id)) st H) as (st1 & E1 & H1 & S1).
    unfold gbind at 1. rewrite E1. destruct (switches_to id st1) as (st2 & E2 & H2 & P2 & R2). unfold gbind at 1. rewrite E2.
    unfold gbind at 1. cbn [gget]. unfold gbind at 1. cbn [gmodify]. eexists. split; [reflexivity|]. cbn [push g_hist g_process g_last g_follow g_previous set_last].
    destruct S1 as (A1 & A2 & A3 & A4), R2 as (B1 & B2 & B3). rewrite P2, B1, B2, B3, A2, A3, A4, H2, H1, A1. repeat split.
    cbn [rev app]. rewrite rev_app_distr. cbn [rev app]. unfold line. now rewrite <- !app_assoc.
  Qed.
  Lemma handle_execution st id : exists st1, g_hist st1 = rev (line (LEvent (ProcessExecution id)) :: tells_switch (g_process st) id) ++ g_hist st /\
    g_process st1 = id /\ rest_same st st1 /\ handle env (XEvent (ProcessExecution id)) st = interrupt env st1.
  Proof.
    cbn [handle]. destruct (does_log (LEvent (ProcessExecution id)) st) as (st1 & E1 & H1 & S1). unfold gbind at 1. rewrite E1.
    destruct (switches_to id st1) as (st2 & E2 & H2 & P2 & R2). unfold gbind at 1. rewrite E2. exists st2.
    destruct S1 as (A1 & A2 & A3 & A4), R2 as (B1 & B2 & B3). rewrite H2, H1, A1. split; [cbn [rev app]; now rewrite <- app_assoc|]. split; [exact P2|].
    split; [unfold rest_same; now rewrite B1, B2, B3, A2, A3, A4|reflexivity].
  Qed.
  Lemma handle_error st e : is_ptrace_error e = true -> e <> no_such_process -> does (handle env (XErr e)) st [line (LPtraceError e)] (Ret tt).
  Proof.
    intros H N. assert (handle env (XErr e) st = gbind (glog (LPtraceError e)) (fun _ => gret tt) st) as E.
    { destruct e; try discriminate; [|reflexivity..]. destruct errno as [n|]; [|reflexivity]. cbn [handle is_ptrace_error].
      destruct (Z.eqb_spec n ESRCH) as [En|En]; [exfalso; apply N; unfold no_such_process; now rewrite En|reflexivity]. }
    destruct (does_log (LPtraceError e) st) as (st1 & E1 & H1 & S1). exists st1. rewrite E. unfold gbind. rewrite E1. refine (conj eq_refl (conj H1 S1)).
  Qed.
  Lemma handle_gone_unknown st pid : answers (CErrorPid no_such_process) (AInt pid) -> answers (CLookup pid) (AObj None) ->
    does (handle env (XErr no_such_process)) st [line (LPtraceError no_such_process); (CErrorPid no_such_process, AInt pid); (CLookup pid, AObj None)] (Ret tt).
  Proof.
    intros H1 H2. change (handle env (XErr no_such_process)) with (gbind (glog (LPtraceError no_such_process)) (fun _ => gbind (ask_int env (CErrorPid no_such_process)) (deleteProcess env))).
    change (?a :: ?b :: ?c) with ([a] ++ [b] ++ c). eapply does_bind; [apply does_log|]. intros st1 _. eapply does_bind; [apply does_int, H1|]. intros st2 _.
    unfold deleteProcess. rewrite <- (app_nil_r [(CLookup pid, AObj None)]). eapply does_bind; [apply does_obj, H2|]. intros st3 _. apply does_ret.
  Qed.
  Lemma handle_gone st pid id ev l : answers (CErrorPid no_such_process) (AInt pid) -> answers (CLookup pid) (AObj (Some id)) -> answers (CTerminated id) (AEvent ev) ->
    answers CProcesses (AProcs l) ->
    does_and_switches (handle env (XErr no_such_process)) st
      ([line (LPtraceError no_such_process); (CErrorPid no_such_process, AInt pid); (CLookup pid, AObj (Some id)); (CTerminated id, AEvent ev); line (LEvent ev)] ++
       (if Nat.eq_dec id (g_process st) then next_one (g_process st) l else []))
      (if Nat.eq_dec id (g_process st) then first_of (g_process st) l else g_process st) (Ret tt).
  Proof.
    intros H1 H2 H3 H4. change (handle env (XErr no_such_process)) with (gbind (glog (LPtraceError no_such_process)) (fun _ => gbind (ask_int env (CErrorPid no_such_process)) (deleteProcess env))).
    cbn [app]. change (?a :: ?b :: ?c :: ?d :: ?e :: ?f) with ([a] ++ [b] ++ [c] ++ [d] ++ [e] ++ f).
    eapply then_switches; [apply does_log|]. intros st1 S1. eapply then_switches; [apply does_int, H1|]. intros st2 S2. unfold deleteProcess.
    eapply then_switches; [apply does_obj, H2|]. intros st3 S3. eapply then_switches; [apply does_event, H3|]. intros st4 S4. eapply then_switches; [apply does_log|]. intros st5 S5.
    assert (g_process st5 = g_process st) as E by (destruct S5 as [-> _], S4 as [-> _], S3 as [-> _], S2 as [-> _], S1 as [-> _]; reflexivity).
    unfold does_and_switches, gbind, gget. rewrite E. destruct (Nat.eq_dec id (g_process st)) as [Ei|Ei].
    - apply Nat.eqb_eq in Ei. rewrite Ei. rewrite <- E. apply next_does, H4.
    - apply Nat.eqb_neq in Ei. rewrite Ei. exists st5. refine (conj eq_refl (conj eq_refl (conj E _))). repeat split.
  Qed.
  Lemma handle_other st e : is_ptrace_error e = false -> e <> EKeyboardInterrupt -> handle env (XErr e) st = (st, Raise (XErr e)).
  Proof. intros H N. destruct e; try discriminate; try reflexivity. congruence. Qed.
  Lemma handle_interrupt st : handle env (XErr EKeyboardInterrupt) st = interrupt env st.
  Proof. reflexivity. Qed.
  (** ** An error of a question about the code *)
  Lemma does_raises {A} c x (m : ans -> GM A) st : answers c (ARaise x) -> does (gbind (ask env c) m) st [(c, ARaise x)] (Raise x).
  Proof. intros H. exists (push c (ARaise x) st). split; [unfold gbind, ask; cbv zeta; rewrite !H; reflexivity|]. split; [reflexivity|]. repeat split. Qed.
  Lemma does_rescued {A} (m : GM A) h st l1 l2 x r : does m st l1 (Raise x) -> (forall st', same st st' -> does (h x) st' l2 r) -> does (gtry m h) st (l1 ++ l2) r.
  Proof.
    intros (st1 & E1 & H1 & S1) F. destruct (F _ S1) as (st2 & E2 & H2 & S2). exists st2. unfold gtry. rewrite E1. split; [exact E2|].
    split; [rewrite H2, H1, rev_app_distr, app_assoc; reflexivity|]. destruct S1 as (A1 & A2 & A3 & A4), S2 as (B1 & B2 & B3 & B4). unfold same. now rewrite B1, B2, B3, B4, A1, A2, A3, A4.
  Qed.
  Lemma does_fails {A B} (m : GM A) (f : A -> GM B) st l x : does m st l (Raise x) -> does (gbind m f) st l (Raise x).
  Proof. intros (st1 & E1 & H1 & S1). exists st1. unfold gbind. rewrite E1. auto. Qed.
  Lemma size_error st a e : dis = true -> answers (CInstrSize (g_process st) a) (ARaise (XErr e)) -> is_ptrace_error e = true ->
    does (readInstrSize dis env a) st [(CInstrSize (g_process st) a, ARaise (XErr e)); line (LNoSize a e)] (Ret None).
  Proof.
    intros Hd H He. unfold readInstrSize. rewrite Hd. cbn [negb]. apply does_get. unfold on_ptrace_error. change ([?a; ?b]) with ([a] ++ [b]). eapply does_rescued.
    - unfold ask_int. apply does_fails, does_raises, H.
    - intros st1 S1. cbv beta iota. rewrite He. rewrite <- (app_nil_r [line _]). eapply does_bind; [apply does_log|]. intros; apply does_ret.
  Qed.
  Lemma step_zero st ip shown : dis = true -> answers (CDisassemble (g_process st)) (AInt shown) -> answers (CGetIP (g_process st)) (AInt ip) -> answers (CInstrSize (g_process st) ip) (AInt 0) ->
    does (run (dispatch (T "step"))) st (shows_code dis st "Execute" shown ++ [(CGetIP (g_process st), AInt ip)] ++ asks_size dis st ip (Some 0))
      (Ret (Some (MText (T "Unable to read instruction size at " ++ formatAddress p ip)))).
  Proof.
    intros Hd H0 H1 H2. change (run (dispatch (T "step"))) with (step p dis env false None). unfold step.
    eapply does_bind; [apply instr_does; rewrite Hd; exact H0|]. intros st1 S1. cbn [negb]. apply does_get. rewrite (same_process _ _ S1).
    eapply does_bind; [now apply does_int|]. intros st2 S2. rewrite <- (app_nil_r (asks_size _ _ _ _)). eapply does_bind.
    - unfold readInstrSize, asks_size. rewrite Hd. cbn [negb]. apply does_get. unfold on_ptrace_error. apply does_try. rewrite (same_process _ _ S2), (same_process _ _ S1).
      rewrite <- (app_nil_r [_]). eapply does_bind; [apply does_int, H2|]. intros; apply does_ret.
    - intros. apply does_ret.
  Qed.
  Lemma step_error st ip shown e : dis = true -> answers (CDisassemble (g_process st)) (AInt shown) -> answers (CGetIP (g_process st)) (AInt ip) ->
    answers (CInstrSize (g_process st) ip) (ARaise (XErr e)) -> is_ptrace_error e = true ->
    does (run (dispatch (T "step"))) st (shows_code dis st "Execute" shown ++ [(CGetIP (g_process st), AInt ip); (CInstrSize (g_process st) ip, ARaise (XErr e)); line (LNoSize ip e)])
      (Ret (Some (MText (T "Unable to read instruction size at " ++ formatAddress p ip)))).
  Proof.
    intros Hd H0 H1 H2 He. change (run (dispatch (T "step"))) with (step p dis env false None). unfold step.
    eapply does_bind; [apply instr_does; rewrite Hd; exact H0|]. intros st1 S1. cbn [negb]. apply does_get. rewrite (same_process _ _ S1).
    change (?a :: ?b) with ([a] ++ b). eapply does_bind; [now apply does_int|]. intros st2 S2. change ([?a] ++ ?b) with (a :: b). rewrite <- (app_nil_r (_ :: _)). eapply does_bind.
    - replace (g_process st) with (g_process st2) by (now rewrite (same_process _ _ S2), (same_process _ _ S1)). apply size_error; [exact Hd| |exact He].
      now rewrite (same_process _ _ S2), (same_process _ _ S1).
    - intros. apply does_ret.
  Qed.
  Lemma break_error st t a e bp : parse p eval env st t = Ok a -> dis = true -> answers (CInstrSize (g_process st) a) (ARaise (XErr e)) -> is_ptrace_error e = true ->
    answers (CCreateBreakpoint (g_process st) a None) (AObj (Some bp)) ->
    does (run (dispatch (T "break " ++ t))) st
      [(CInstrSize (g_process st) a, ARaise (XErr e)); line (LNoSize a e); (CCreateBreakpoint (g_process st) a None, AObj (Some bp)); line (LNewBreakpoint bp)] (Ret None).
  Proof.
    intros Hp Hd H0 He H1. apply does_parse with (v := a); [exact Hp|]. change ([?a; ?b; ?c; ?d]) with ([a; b] ++ [c] ++ [d]).
    eapply does_bind; [apply size_error; assumption|]. intros st1 S1. apply does_get. rewrite (same_process _ _ S1). eapply does_bind.
    - unfold on_ptrace_error. apply does_try. rewrite <- (app_nil_r [_]). eapply does_bind; [apply does_new, H1|]. intros; apply does_ret.
    - intros st2 S2. cbv beta iota. rewrite <- (app_nil_r [_]). eapply does_bind; [apply does_log|]. intros; apply does_ret.
  Qed.
  Lemma instr_error st prefix e : answers (if dis then CDisassemble (g_process st) else CDumpCode (g_process st) None None false) (ARaise (XErr e)) -> is_ptrace_error e = true ->
    does (displayInstr dis env prefix) st [(if dis then CDisassemble (g_process st) else CDumpCode (g_process st) None None false, ARaise (XErr e)); line (LNoInstr e)] (Ret tt).
  Proof.
    intros H He. unfold displayInstr. apply does_get. unfold on_ptrace_error. change ([?a; ?b]) with ([a] ++ [b]). eapply does_rescued.
    - destruct dis; [unfold ask_int; apply does_fails, does_raises, H|unfold ask_unit; apply does_raises, H].
    - intros st1 S1. cbv beta iota. rewrite He. apply does_log.
  Qed.
  (** until an event *)
  Lemma until_event st t a n bp x : parse p eval env st t = Ok a -> (dis = true -> answers (CInstrSize (g_process st) a) (AInt n)) ->
    answers (CCreateBreakpoint (g_process st) a (size_of dis n)) (AObj (Some bp)) -> answers (CCont (g_process st) 0) AUnit ->
    answers (CWait (g_process st) 5) (ARaise x) -> answers (CDesinstall bp false) AUnit ->
    does (run (dispatch (T "until " ++ t))) st (asks_size dis st a (Some n) ++
      [(CCreateBreakpoint (g_process st) a (size_of dis n), AObj (Some bp)); (CCont (g_process st) 0, AUnit); (CWait (g_process st) 5, ARaise x); (CDesinstall bp false, AUnit)]) (Raise x).
  Proof.
    intros Hp Hs H1 H2 H3 H4. apply does_parse with (v := a); [exact Hp|]. apply does_fails. unfold step. apply (does_bind (gret tt) _ _ [] _ tt); [apply does_ret|]. intros st1 S1. cbn [negb].
    replace (asks_size dis st a (Some n) ++ _) with ((asks_size dis st a (Some n) ++ [(CCreateBreakpoint (g_process st) a (size_of dis n), AObj (Some bp)); (CCont (g_process st) 0, AUnit)]) ++ [(CWait (g_process st) 5, ARaise x)] ++ [(CDesinstall bp false, AUnit)]) by now rewrite <- app_assoc.
    eapply does_bind.
    - unfold step_break. eapply (does_bind _ _ _ _ _ (size_of dis n)).
      + unfold readInstrSize, asks_size, size_of in *. destruct dis; cbn [negb].
        * apply does_get. unfold on_ptrace_error. apply does_try. rewrite (same_process _ _ S1). rewrite <- (app_nil_r [_]). eapply does_bind; [apply does_int, Hs, eq_refl|]. intros; apply does_ret.
        * apply does_ret.
      + intros st2 S2. apply does_get. rewrite (same_process _ _ S2), (same_process _ _ S1). change ([?a; ?b]) with ([a] ++ [b]). eapply does_bind.
        * apply does_new. exact H1.
        * intros st3 S3. rewrite <- (app_nil_r [_]). eapply does_bind; [apply does_unit, H2|]. intros; apply does_ret.
    - intros st2 S2. unfold step_wait. apply does_get. rewrite (same_process _ _ S2), (same_process _ _ S1). eapply does_rescued.
      + apply does_fails. unfold ask_event. apply does_raises, H3.
      + intros st3 S3. cbv beta iota. rewrite <- (app_nil_r [(CDesinstall bp false, AUnit)]). eapply does_bind; [apply does_unit, H4|]. intros st4 S4. exists st4. repeat split.
  Qed.
  Lemma interrupt_error st q l x : answers CProcesses (AProcs (q :: l)) -> answers (CIsStopped q) (ABool false) -> answers (CIsTraced q) (ARaise x) -> x <> XErr ENotImplementedError ->
    does (interrupt env) st [(CProcesses, AProcs (q :: l)); (CIsStopped q, ABool false); (CIsTraced q, ARaise x)] (Raise x).
  Proof.
    intros H1 H2 H3 Hx. unfold interrupt. change ([?a; ?b; ?c]) with ([a] ++ [b] ++ [c]). eapply does_bind; [apply does_procs, H1|]. intros st1 _. apply does_fails. cbv beta iota.
    eapply does_bind. { unfold ask_bool. rewrite <- (app_nil_r [_]). eapply does_bind; [apply does_ask; [exact H2|discriminate]|]. intros; apply does_ret. }
    intros st2 _. cbv beta iota. apply does_fails. rewrite <- (app_nil_r [_]). eapply does_rescued; [unfold ask_bool; apply does_raises, H3|].
    intros st3 _. exists st3. split; [|repeat split]. destruct x as [[]|]; try reflexivity. congruence.
  Qed.
End Events.
