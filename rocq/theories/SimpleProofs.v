(** * SimpleProofs: proofs about examples/simple_dbg.py. *)
From Coq Require Import ZArith List Ascii String Bool Lia.
From Verif Require Import PyBase PyFacts PyInt PyIntFacts Platform DbgModel DbgSpec DbgProofs DbgProofs2 DbgProofs3 DbgProofs4 DbgProofs5 DbgFinal DbgFinal2
  SigModel ToolsModel SimpleModel SimpleSpec.
Import ListNotations.
Open Scope Z_scope.

(** ** requests *)
Definition no_attach (st : dstate) (c : kcall) : Prop := is_attach c = false.
Lemma na_ord st st' : ticks (ordinary true) st st' -> ticks no_attach st st'.
Proof. intros H. eapply ticks_mono; [|exact H]. intros s c Hc. destruct c; try reflexivity; destruct Hc. Qed.
Section Requests.
  Context (K : dkernel) (p : platform).
  Lemma na_wait f q : within no_attach (wait K p f q).
  Proof.
    intros st. eapply ticks_mono; [|apply (within_wait K p true (fun _ => eq_refl) f q (fun _ => eq_refl))].
    intros s c H. destruct c; try reflexivity; destruct H.
  Qed.
  Lemma na_add f pid par th : within no_attach (addProcess K p f pid true par th).
  Proof.
    unfold addProcess. apply (within_add K p true (wait K p f)); [|intros st st' H|discriminate].
    - intros q _. apply within_wait; auto.
    - eapply ticks_mono; [|exact H]. intros s c Hc. destruct c; try reflexivity; destruct Hc.
  Qed.
  Lemma na_terminate f id w : within no_attach (terminate K p f id w).
  Proof.
    assert (forall b, within no_attach (if b : bool then cont K id SIGKILL else kill K id SIGKILL)) as Hm.
    { intros []; [apply within_cont; reflexivity|]. apply within_bind; [win|]. intros q. apply within_request; [reflexivity|discriminate]. }
    unfold terminate. apply within_bind; [win|]. intros q. destruct (_ || _); [win|]. apply within_bind.
    - intros st. specialize (Hm (pr_is_stopped q) st).
      destruct ((if pr_is_stopped q then cont K id SIGKILL else kill K id SIGKILL) st) as [s [u|[e|ev]]]; cbn [fst] in Hm; try exact Hm.
      destruct (ptrace_errno e) as [[n|]|]; try exact Hm. destruct (n =? ESRCH); exact Hm.
    - intros []; [apply within_bind; [apply within_notRunning|win]|]. destruct (negb w); [win|].
      apply within_bind; [unfold waitExit; apply within_bind; [apply na_wait|win]|]. intros _.
      apply within_bind; [apply within_notRunning|win].
  Qed.
  Lemma na_quit f : within no_attach (quit K p f).
  Proof.
    unfold quit. apply within_bind; [win|]. intros st. generalize (rev (d_list st)). intros l.
    induction l as [|id l IH]; cbn [quit_loop]; [win|]. apply within_bind; [apply na_terminate|]. intros _.
    apply within_bind; [apply within_detach|]. intros _. exact IH.
  Qed.
  Lemma na_calls st st' : ticks no_attach st st' -> filter is_attach (d_calls st') = filter is_attach (d_calls st).
  Proof.
    induction 1 as [|st st1 st2 H _ IH]; [reflexivity|]. rewrite IH.
    destruct H; try reflexivity. cbn. unfold no_attach in H. rewrite H. reflexivity.
  Qed.
End Requests.

Section Proofs.
  Context (p : platform) (ns : namespace) (K : dkernel) (fuel : nat).
  Context (regs : res (list text)) (error_text : exn -> text) (create : list text -> res Z).
  Context (cwd : text) (env_path : option text) (executable : text -> bool).
  Let go := simple_dbg p ns K fuel regs error_text create cwd env_path executable.
  Let play := playWithProcess p ns K fuel regs error_text.

  Lemma usage me : go [me] = ((new_debugger p, [Stderr (T "   or: " ++ me ++ T " pid"); Stderr (T "usage: " ++ me ++ T " program [arg1 arg2 ...]")]),
    Raise (XErr (ESystemExit 1))).
  Proof. reflexivity. Qed.

  (** the part after the process identifier is known *)
  Definition session (pid : Z) (attached : bool) : (dstate * list note) * out unit :=
    (id <+- sdbg (addProcess K p fuel pid attached None false); _ <+- play id; sdbg (quit K p fuel)) (new_debugger p, []).
  Lemma go_attach me word pid : py_int 10 word = Ok pid -> go [me; word] = session pid false.
  Proof.
    intros H. unfold go, simple_dbg, main. change (Nat.ltb _ 2) with false. cbv iota.
    unfold sbind at 1, sres, given_pid. rewrite H. reflexivity.
  Qed.
  Lemma go_trace me program rest : (rest = [] -> py_int 10 program = Err EValueError) ->
    go (me :: program :: rest) =
    match create (locateProgram cwd env_path executable program :: rest) with
    | Ok pid => session pid true
    | Err e => ((new_debugger p, []), Raise (XErr e))
    end.
  Proof.
    intros H. unfold go, simple_dbg, main. replace (Nat.ltb _ 2) with false by (destruct rest; reflexivity). cbv iota.
    unfold sbind at 1, sres at 1. replace (given_pid (me :: program :: rest)) with (@Ok (option Z) None).
    - unfold sbind at 1, traceProgram, sres. cbn [tl]. destruct (create _); reflexivity.
    - symmetry. destruct rest; [|reflexivity]. unfold given_pid. rewrite H; reflexivity.
  Qed.

  (** ** the debugger *)
  Definition moves (m : dstate * list note -> (dstate * list note) * out unit) : Prop :=
    forall s, ticks no_attach (fst s) (fst (fst (m s))).
  Lemma log_fst l s : fst (fst (log_lines l s)) = fst s.
  Proof. revert s. induction l as [|t l IH]; intros s; [reflexivity|]. cbn [log_lines]. unfold sbind, say. rewrite IH. reflexivity. Qed.
  Lemma log_spec l s : log_lines l s = ((fst s, rev (map Logged l) ++ snd s), Ret tt).
  Proof.
    revert s. induction l as [|t l IH]; intros [d n]; [reflexivity|]. cbn [log_lines]. unfold sbind, say. rewrite IH. cbn [fst snd map rev].
    rewrite <- app_assoc. reflexivity.
  Qed.
  Lemma dump_fst s : fst (fst (process_dumpRegs regs error_text s)) = fst s.
  Proof. unfold process_dumpRegs. destruct regs as [l|e]; [apply log_fst|]. destruct (ptrace_errno e); reflexivity. Qed.
  Lemma play_ticks id s : ticks no_attach (fst s) (fst (fst (play id s))).
  Proof.
    unfold play, playWithProcess. unfold sbind at 1, say at 1. unfold sbind at 1.
    pose proof (dump_fst (fst s, Printed (T "Dump process registers") :: snd s)) as D.
    destruct (process_dumpRegs regs error_text _) as [[d n] [u|x]]; cbn [fst] in D; subst d; [|cbn; constructor].
    unfold sbind at 1, say at 1. unfold sbind at 1, sdbg at 1. cbn [fst snd].
    pose proof (within_cont K no_attach id 0 (fun _ _ => eq_refl) (fst s)) as C.
    destruct (cont K id 0 (fst s)) as [d [[]|x]]; cbn [fst] in C |- *; [|exact C].
    unfold sbind at 1, say at 1. unfold sbind at 1, sdbg at 1. cbn [fst snd].
    pose proof (na_wait K p fuel (wait_event_query (Some (pid_in d id)) true) d) as W. fold (waitProcessEvent K p fuel (Some (pid_in d id)) true d) in W.
    destruct (waitProcessEvent K p fuel (Some (pid_in d id)) true d) as [d' [e|x]]; cbn [fst] in W |- *; eapply ticks_trans; eauto.
  Qed.
  Lemma session_attach pid (attached : bool) :
    filter is_attach (rev (d_calls (fst (fst (session pid attached))))) = if attached then [] else [KAttach pid].
  Proof.
    assert (Hrev : forall l, filter is_attach (rev l) = rev (filter is_attach l)).
    { intros l. induction l as [|c l IH]; [reflexivity|]. cbn [rev filter]. rewrite filter_app, IH. cbn. destruct (is_attach c); [reflexivity|apply app_nil_r]. }
    rewrite Hrev.
    assert (G : filter is_attach (d_calls (fst (fst (session pid attached)))) =
                filter is_attach (d_calls (fst (addProcess K p fuel pid attached None false (new_debugger p))))).
    { unfold session. unfold sbind at 1, sdbg at 1. cbn [fst snd]. destruct (addProcess _ _ _ _ _ _ _ _) as [d [id|x]]; [|reflexivity].
      unfold sbind at 1. pose proof (play_ticks id (d, [])) as T. cbn [fst] in T |- *. destruct (play id (d, [])) as [[d' n] [u|x]]; cbn [fst] in T |- *; [|now apply na_calls].
      unfold sdbg. cbn [fst snd]. pose proof (na_quit K p fuel d') as Q. destruct (quit K p fuel d') as [d2 r]. cbn [fst] in Q |- *.
      apply na_calls. eapply ticks_trans; eauto. }
    rewrite G. destruct attached.
    - rewrite (na_calls _ _ (na_add K p fuel pid None false (new_debugger p))). unfold new_debugger, enableSysgood. destruct (negb _); reflexivity.
    - unfold addProcess, addProcess_. unfold dbind at 1, dget_state at 1.
      replace (dmem Z.eqb pid (d_dict (new_debugger p))) with false by (unfold new_debugger, enableSysgood; destruct (negb _); reflexivity).
      unfold dbind at 1, request at 1. destruct (k_do K _ _).
      + set (s0 := add_call (new_debugger p) (KAttach pid)).
        match goal with |- rev (filter is_attach (d_calls (fst (?m s0)))) = _ => assert (T : ticks no_attach s0 (fst (m s0))) end.
        { clear G. pose proof (na_add K p fuel pid None false s0) as A.
          (* the rest of addProcess is the same after PTRACE_ATTACH *)
          unfold dbind at 1. cbn [fst]. set (s1 := set_reg _ _ _).
          assert (E : s1 = enrol s0 (Proc pid true false false true true false None)).
          { unfold s1, enrol. cbn [pr_pid]. unfold s0. cbn [add_call d_procs]. reflexivity. }
          apply ticks_trans with s1; [rewrite E; apply ticks_one, t_new; [cbn [pr_pid]|reflexivity]|].
          { unfold s0, new_debugger, enableSysgood. destruct (negb _); reflexivity. }
          clear A E. generalize s1. clear s1. generalize (List.length (d_procs (new_debugger p))). intros id.
          apply within_bind.
          - intros st. pose proof (na_ord _ _ (within_waitSignals true (wait K p fuel) (fun q _ => within_wait K p true (fun _ => eq_refl) fuel q (fun _ => eq_refl)) [SIGTRAP; SIGSTOP] (Some pid) st)) as Hw.
            destruct (waitSignals_ (wait K p fuel) [SIGTRAP; SIGSTOP] (Some pid) st) as [s r]; cbn [fst] in Hw.
            destruct r as [ev|x]; [exact Hw|].
            assert (ticks no_attach st (fst (match upd_proc id (set_attached false) s with
                     | (st0, _) => match detach K id st0 with
                         | (st1, Ret _) => (st1, @Raise unit x) | (st1, Raise x') => (st1, Raise x') end end))) as Hbad.
            { unfold upd_proc. fold (upd s id (set_attached false)). eapply ticks_trans; [exact Hw|].
              eapply ticks_step; [apply t_unattach|].
              pose proof (within_detach K no_attach id (upd s id (set_attached false))) as Hd.
              destruct (detach K id _) as [s2 [u'|x']]; exact Hd. }
            destruct x as [e|ev]; [destruct e; try exact Hbad; exact Hw|].
            destruct ev; try exact Hbad. eapply ticks_trans; [exact Hw|]. apply (within_request K no_attach); [reflexivity|discriminate].
          - intros _. apply within_bind; [|win]. intros st. destruct (has_ptrace_events p && _) eqn:Eh; [|constructor].
            unfold setoptions, dbind, get_proc. destruct (nth_error _ _); [|apply ticks_refl]. destruct (negb (has_ptrace_events p)); [apply ticks_refl|].
            apply ticks_one. apply t_call; [reflexivity|discriminate]. }
        apply na_calls in T. etransitivity; [apply (f_equal (@rev kcall)); exact T|]. unfold s0. cbn. unfold new_debugger, enableSysgood. destruct (negb _); reflexivity.
      + cbn. unfold new_debugger, enableSysgood. destruct (negb _); reflexivity.
  Qed.

  (** the state is one of the debugger *)
  Lemma session_reachable pid attached : reachable_plain K p (fst (fst (session pid attached))).
  Proof.
    unfold session. unfold sbind at 1, sdbg at 1. cbn [fst snd].
    destruct (addProcess K p fuel pid attached None false (new_debugger p)) as [d [id|x]] eqn:EA.
    2:{ exists [OpAdd fuel pid attached None false]. split; [reflexivity|]. cbn [fold_left run_op]. rewrite EA. reflexivity. }
    unfold sbind at 1. unfold play, playWithProcess. unfold sbind at 1, say at 1. unfold sbind at 1. cbn [fst snd].
    pose proof (dump_fst (d, [Printed (T "Dump process registers")])) as D. cbn [fst] in D.
    destruct (process_dumpRegs regs error_text _) as [[d1 n] [u|x]]; cbn [fst] in D; subst d1.
    2:{ exists [OpAdd fuel pid attached None false]. split; [reflexivity|]. cbn [fold_left run_op]. rewrite EA. reflexivity. }
    unfold sbind at 1, say at 1. unfold sbind at 1, sdbg at 1. cbn [fst snd].
    destruct (cont K id 0 d) as [d2 [[]|x]] eqn:EC.
    2:{ exists [OpAdd fuel pid attached None false; OpCont id 0]. split; [reflexivity|]. cbn [fold_left run_op]. rewrite EA. cbn [fst]. rewrite EC. reflexivity. }
    unfold sbind at 1, say at 1. unfold sbind at 1, sdbg at 1. cbn [fst snd].
    destruct (waitProcessEvent K p fuel (Some (pid_in d2 id)) true d2) as [d3 [ev|x]] eqn:EW.
    2:{ exists [OpAdd fuel pid attached None false; OpCont id 0; OpWait fuel (Some (pid_in d2 id)) true]. split; [reflexivity|].
        cbn [fold_left run_op]. rewrite EA. cbn [fst]. rewrite EC. cbn [fst]. rewrite EW. reflexivity. }
    unfold say, sdbg. cbn [fst snd].
    destruct (quit K p fuel d3) as [d4 r] eqn:EQ. cbn [fst].
    exists [OpAdd fuel pid attached None false; OpCont id 0; OpWait fuel (Some (pid_in d2 id)) true; OpQuit fuel]. split; [reflexivity|].
    cbn [fold_left run_op]. rewrite EA. cbn [fst]. rewrite EC. cbn [fst]. rewrite EW. cbn [fst]. rewrite EQ. reflexivity.
  Qed.
  (** what is written *)
  Lemma session_said pid attached s notes : session pid attached = ((s, notes), Ret tt) ->
    exists d d3 id ev lines, addProcess K p fuel pid attached None false (new_debugger p) = (d, Ret id) /\
      (regs = Ok lines \/ exists e, regs = Err e /\ ptrace_errno e <> None /\ lines = [T "Unable to read registers: " ++ error_text e]) /\
      rev notes = dialogue lines (event_message ns (pid_in d3) ev) /\ quit K p fuel d3 = (s, Ret tt).
  Proof.
    unfold session. unfold sbind at 1, sdbg at 1. cbn [fst snd].
    destruct (addProcess K p fuel pid attached None false (new_debugger p)) as [d [id|x]] eqn:EA; [|discriminate].
    unfold sbind at 1. unfold play, playWithProcess. unfold sbind at 1, say at 1. unfold sbind at 1. cbn [fst snd].
    assert (D : exists lines, (regs = Ok lines \/ exists e, regs = Err e /\ ptrace_errno e <> None /\ lines = [T "Unable to read registers: " ++ error_text e]) /\
      process_dumpRegs regs error_text (d, [Printed (T "Dump process registers")]) =
      ((d, rev (map Logged lines) ++ [Printed (T "Dump process registers")]), Ret tt) \/
      exists s' x, process_dumpRegs regs error_text (d, [Printed (T "Dump process registers")]) = (s', Raise x)).
    { unfold process_dumpRegs. destruct regs as [l|e].
      - exists l. left. split; [auto|]. rewrite log_spec. reflexivity.
      - destruct (ptrace_errno e) eqn:Ep.
        + exists [T "Unable to read registers: " ++ error_text e]. left. split; [right; exists e; rewrite Ep; repeat split; discriminate|]. reflexivity.
        + exists []. right. do 2 eexists. reflexivity. }
    destruct D as (lines & [(HL & D)|(s' & x & D)]); rewrite D; [|discriminate].
    unfold sbind at 1, say at 1. unfold sbind at 1, sdbg at 1. cbn [fst snd].
    destruct (cont K id 0 d) as [d2 [[]|x]] eqn:EC; [|discriminate].
    unfold sbind at 1, say at 1. unfold sbind at 1, sdbg at 1. cbn [fst snd].
    destruct (waitProcessEvent K p fuel (Some (pid_in d2 id)) true d2) as [d3 [[ev|]|x]] eqn:EW; [| |discriminate].
    2:{ exfalso. eapply signals_no_none; eauto. }
    unfold say, sdbg. cbn [fst snd].
    destruct (quit K p fuel d3) as [d4 [[]|x]] eqn:EQ; [|discriminate]. intros [= <- <-].
    exists d, d3, id, ev, lines. repeat split; auto. cbn [rev]. rewrite !rev_app_distr, rev_involutive. cbn [rev app].
    rewrite <- !app_assoc. reflexivity.
  Qed.
End Proofs.
(** ** the statements about command lines *)
Lemma attach_spec p ns K fuel regs et create cwd path ex me pid :
  let run := simple_dbg p ns K fuel regs et create cwd path ex [me; str_int pid] in
  (forall create', simple_dbg p ns K fuel regs et create' cwd path ex [me; str_int pid] = run) /\
  filter is_attach (rev (d_calls (fst (fst run)))) = [KAttach pid] /\ reachable_plain K p (fst (fst run)).
Proof.
  intros run. assert (H : py_int 10 (str_int pid) = Ok pid).
  { pose proof (py_int_str pid [] [] (Forall_nil _) (Forall_nil _)) as H. rewrite app_nil_r in H. exact H. }
  unfold run. split; [|split].
  - intros create'. rewrite (go_attach p ns K fuel regs et create' cwd path ex me _ pid H), (go_attach p ns K fuel regs et create cwd path ex me _ pid H). reflexivity.
  - rewrite (go_attach p ns K fuel regs et create cwd path ex me _ pid H). exact (session_attach p ns K fuel regs et create cwd path ex pid false).
  - rewrite (go_attach p ns K fuel regs et create cwd path ex me _ pid H). apply (session_reachable p ns K fuel regs et create cwd path ex).
Qed.
Lemma trace_spec p ns K fuel regs et create cwd path ex me program rest :
  (rest = [] -> py_int 10 program = Err EValueError) ->
  let run := simple_dbg p ns K fuel regs et create cwd path ex (me :: program :: rest) in
  match create (locateProgram cwd path ex program :: rest) with
  | Err e => run = ((new_debugger p, []), Raise (XErr e))
  | Ok pid => filter is_attach (d_calls (fst (fst run))) = [] /\ reachable_plain K p (fst (fst run))
  end.
Proof.
  intros H run. unfold run. rewrite go_trace by exact H. destruct (create _) as [pid|e]; [|reflexivity].
  split; [|apply (session_reachable p ns K fuel regs et create cwd path ex)].
  pose proof (session_attach p ns K fuel regs et create cwd path ex pid true) as A. cbv iota in A.
  destruct (d_calls _) as [|c l]; [reflexivity|]. revert A. generalize (c :: l). clear. intros l A.
  induction l as [|c l IH]; [reflexivity|]. cbn [rev] in A. rewrite filter_app in A. apply app_eq_nil in A as [A B].
  cbn [filter] in B |- *. destruct (is_attach c); [discriminate|]. auto.
Qed.
(** the process the command line means *)
Lemma said_spec p ns K fuel regs et create cwd path ex me program rest s notes :
  simple_dbg p ns K fuel regs et create cwd path ex (me :: program :: rest) = ((s, notes), Ret tt) ->
  exists pid (attached : bool) d d3 id ev lines,
    (if attached then create (locateProgram cwd path ex program :: rest) = Ok pid else rest = [] /\ py_int 10 program = Ok pid) /\
    addProcess K p fuel pid attached None false (new_debugger p) = (d, Ret id) /\
    (regs = Ok lines \/ exists e, regs = Err e /\ ptrace_errno e <> None /\ lines = [T "Unable to read registers: " ++ et e]) /\
    rev notes = dialogue lines (event_message ns (pid_in d3) ev) /\ quit K p fuel d3 = (s, Ret tt).
Proof.
  intros H.
  destruct (match rest with [] => match py_int 10 program with Ok pid => Some pid | Err _ => None end | _ => None end) as [pid|] eqn:G.
  - destruct rest; [|discriminate]. destruct (py_int 10 program) as [pid'|] eqn:Q; [|discriminate]. injection G as ->.
    rewrite (go_attach p ns K fuel regs et create cwd path ex me _ pid Q) in H. apply (session_said p ns K fuel regs et create cwd path ex) in H as (d & d3 & id & ev & lines & H).
    exists pid, false, d, d3, id, ev, lines. repeat split; try apply H; auto.
  - rewrite go_trace in H.
    + destruct (create _) as [pid|e] eqn:C; [|discriminate]. apply (session_said p ns K fuel regs et create cwd path ex) in H as (d & d3 & id & ev & lines & H).
      exists pid, true, d, d3, id, ev, lines. repeat split; try apply H; auto.
    + intros ->. destruct (py_int 10 program) as [?|e] eqn:Q; [discriminate|]. unfold py_int in Q.
      destruct (match strip program with [] => _ | _ :: _ => _ end); inversion Q; reflexivity.
Qed.
(** an exception on the way: the process is left as it is *)
Lemma left_alone : exists K argv create notes s, let r := simple_dbg linux_x86_64 [] K 5 (Ok []) (fun _ => []) create (T "/") None (fun _ => true) argv in
  r = ((s, notes), Raise (XErr EKeyboardInterrupt)) /\ create [T "/bin/true"] = Ok 100 /\
  attached s 0 /\ alive s 0 /\ has_pid s 0 100 /\ d_list s = [0%nat] /\
  forall c, In c (d_calls s) -> is_kill c = false /\ forall i pid, c <> KDetach i pid /\ c <> KCont i pid 9.
Proof.
  set (K := DKernel (fun n pid _ => if (n =? 0)%nat then Ok (pid, stop_by 5) else Err EKeyboardInterrupt) (fun _ _ => Ok 0) (fun _ _ => Ok tt)).
  exists K, [T "simple_dbg.py"; T "/bin/true"], (fun l => match l with [_] => Ok 100 | _ => Err EIndexError end).
  eexists _, _. cbv zeta. split; [vm_compute; reflexivity|]. split; [reflexivity|].
  split; [eexists; split; [reflexivity|reflexivity]|]. split; [eexists; split; [reflexivity|reflexivity]|]. split; [eexists; split; [reflexivity|reflexivity]|].
  split; [reflexivity|]. cbn [d_calls]. intros c H. repeat (destruct H as [<-|H]; [split; [reflexivity|split; discriminate]|]). destruct H.
Qed.
