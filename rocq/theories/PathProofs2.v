(** * PathProofs2: examples/itrace.py from the start of the program to its end (C126). *)
From Coq Require Import ZArith List Ascii String Bool Lia.
From Verif Require Import PyBase PyFacts Platform SigModel ToolsModel DbgModel DbgSpec DbgProofs DbgProofs2 DbgProofs3 DbgProofs4
  SysModel SysSpec StraceModel StraceSpec StraceProofs StraceProofs2 StraceProofs5 StorySpec StoryProofs StoryProofs2 ItraceModel ItraceSpec ItraceProofs PathSpec PathProofs.
Import ListNotations.
Open Scope Z_scope.

Section Whole.
  Context (p : platform) (ns : namespace) (repr_fs : list byte -> text) (K : dkernel) (stops : nat -> nat -> stop) (o : soptions) (child : res Z)
          (ip : nat -> nat -> res Z) (pid : Z) (Hl : running_linux p = true) (Hpid : pid <> 0).

  Lemma add_one f (a : bool) d s : d_procs d = [] -> d_dict d = [] -> d_list d = [] -> d_sysgood d = true ->
    (d_options d =? 0) = false -> s = 5 \/ s = 19 ->
    let cs := (if a then [] else [KAttach pid]) ++ d_calls d in
    (a = false -> k_do K (List.length (d_calls d)) (KAttach pid) = Ok tt) ->
    reports K pid (List.length cs) (Stopped s) ->
    k_do K (S (List.length cs)) (KSetOptions 0 pid (d_options d)) = Ok tt ->
    exists d', addProcess K p (S f) pid a None false d = (d', Ret 0%nat) /\
      one pid a d' true (KSetOptions 0 pid (d_options d) :: KWait pid 0 :: cs).
  Proof.
    intros Hp Hd Hlist Hg Ho Hs cs Ha Hw Hopt. rewrite add_eq; [|rewrite Hd; reflexivity|intros E; exists tt; now apply Ha].
    cbv zeta. rewrite Hp. cbn [List.length]. set (d1 := DbgProofs4.start pid a None false d).
    assert (one pid a d1 true cs) as A1.
    { unfold d1, DbgProofs4.start, enrol, cs. destruct a; cbn; rewrite ?Hp, ?Hd, ?Hlist; cbn; repeat split; auto. }
    unfold handshake, waitSignals, waitSignals_, wait_event_query, dbind.
    rewrite (wait_signal K p pid 0%nat _ Hpid d1 (List.length cs) cs s f (one_alone _ _ _ _ _ A1)) by (auto; lia).
    set (d2 := with_stopped _ 0%nat true). assert (one pid a d2 true (KWait pid 0 :: cs)) as A2 by (apply one_stopped with (b := true), one_call; exact A1).
    assert (existsb (Z.eqb s) [SIGTRAP; SIGSTOP] = true) as ->. { destruct Hs; subst; reflexivity. }
    unfold dret. cbn [orb]. cbv beta iota zeta.
    assert (d_options d2 = d_options d) as Hd2. { unfold d2, d1, DbgProofs4.start, enrol. destruct a; reflexivity. }
    rewrite Hd2, Ho, (linux_events p Hl). cbn [negb andb].
    unfold setoptions, dbind, get_proc. pose proof A2 as (Q1 & _ & _ & _ & F). rewrite Q1. cbn [nth_error pr_pid]. rewrite (linux_events p Hl). cbn [negb].
    unfold request. rewrite F. change (List.length (KWait pid 0 :: cs)) with (S (List.length cs)). rewrite Hopt. eexists. split; [reflexivity|]. apply one_call; exact A2.
  Qed.
  Lemma arrival f started first asked : arrives o child K pid started first asked ->
    exists st1, (st <~ setupDebugger p o; createProcess p K o child (S f)) (StraceModel.start p) = (st1, Ret (Some 0%nat)) /\
      one pid started (t_dbg st1) true (rev asked) /\ t_sys st1 = [] /\ t_log st1 = [first].
  Proof.
    intros Hb. unfold tbind. destruct (setup_options p o (StraceModel.start p) (linux_events p Hl)) as (d & -> & Do & Df & De & Dc & Ds & Dp & Dd & Dl & Dcs).
    assert (d_calls d = []) as Hc. { rewrite Dcs. unfold StraceModel.start, new_debugger, enableSysgood. destruct (negb (has_ptrace_events p)); reflexivity. }
    assert (d_options d = all_options o) as Hopts.
    { rewrite Do. unfold StraceModel.start, new_debugger, enableSysgood. cbn [t_dbg]. rewrite (linux_events p Hl). reflexivity. }
    assert (d_sysgood d = true) as Hs. { rewrite Ds. unfold StraceModel.start, new_debugger, enableSysgood. cbn [t_dbg]. rewrite (linux_events p Hl). reflexivity. }
    assert (d_procs d = []) as Hp. { rewrite Dp. unfold StraceModel.start, new_debugger, enableSysgood. destruct (negb (has_ptrace_events p)); reflexivity. }
    assert (d_dict d = []) as Hd. { rewrite Dd. unfold StraceModel.start, new_debugger, enableSysgood. destruct (negb (has_ptrace_events p)); reflexivity. }
    assert (d_list d = []) as Hli. { rewrite Dl. unfold StraceModel.start, new_debugger, enableSysgood. destruct (negb (has_ptrace_events p)); reflexivity. }
    assert ((d_options d =? 0) = false) as Hnz. { rewrite Hopts. apply all_options_nonzero. }
    cbv beta iota. set (st := with_debugger (StraceModel.start p) d). assert (t_dbg st = d) as Htd by reflexivity.
    destruct Hb as [x l Hch Hsp Hprog B1 B2|Hsp B0 B1 B2].
    - pose proof (add_one f true d 5 Hp Hd Hli Hs Hnz (or_introl eq_refl)) as Hadd. cbv zeta in Hadd. rewrite Hc, Hopts in Hadd.
      destruct Hadd as (d' & Hadd & Hal); [discriminate|exact B1|exact B2|].
      pose proof (create_program p K o child (S f) st _ pid Hsp (child_line o child x l pid st Hch Hprog)) as Hcr. cbn [wrote t_dbg] in Hcr.
      rewrite Htd, Hadd in Hcr. inversion Hcr as [d2 i2 E1 E2| |].
      eexists. split; [reflexivity|]. split; [exact Hal|]. cbn. auto.
    - pose proof (add_one f false d 19 Hp Hd Hli Hs Hnz (or_intror eq_refl)) as Hadd. cbv zeta in Hadd. rewrite Hc, Hopts in Hadd.
      destruct Hadd as (d' & Hadd & Hal); [intros _; exact B0|exact B1|exact B2|].
      pose proof (create_attach p K o child (S f) pid st Hsp Hpid) as Hcr. cbv zeta in Hcr.
      rewrite Htd, Hadd in Hcr. inversion Hcr as [d2 i2 E1 E2| |].
      eexists. split; [reflexivity|]. split; [exact Hal|]. cbn. auto.
  Qed.

  Notation itrace_main := (fun limit => itrace_main p ns repr_fs K stops o child ip limit).
  Lemma debugger_eq limit rounds f st1 : (st <~ setupDebugger p o; createProcess p K o child f) (StraceModel.start p) = (st1, Ret (Some 0%nat)) ->
    itrace_debugger p K o child ip limit rounds f (StraceModel.start p) =
      match itrace p K ip limit rounds f 0 st1 with (st, Ret _) => (st, Ret None) | (st, Raise x) => (st, Raise x) end.
  Proof.
    intros H. unfold itrace_debugger. unfold tbind in *. destruct (setupDebugger p o (StraceModel.start p)) as [s0 [u|x]]; [|discriminate]. rewrite H.
    destruct (itrace p K ip limit rounds f 0 st1) as [s [u'|x]]; reflexivity.
  Qed.
  Lemma counted_app k i : List.length (counted k i) = k.
  Proof. revert i. induction k; intros i; cbn; [reflexivity|now rewrite IHk]. Qed.
  Lemma walk_lines_app l a : forall i, walk_lines pid i (l ++ [a]) = walk_lines pid i l ++ walk_lines pid (i + zlen l) [a].
  Proof.
    induction l as [|b l IH]; intros i; cbn [app walk_lines]; [unfold zlen; cbn; rewrite Z.add_0_r; reflexivity|].
    rewrite IH. replace (i + zlen (b :: l)) with (i + 1 + zlen l) by (unfold zlen; cbn [List.length]; lia). reflexivity.
  Qed.
  Lemma walk_requests_app l a : walk_requests pid 0 (l ++ [a]) = walk_requests pid 0 l ++ [KStep 0 pid; KWait pid 0].
  Proof. unfold walk_requests. rewrite flat_map_app. reflexivity. Qed.

  (** The part common to all ends: the process is at its last instruction. *)
  Lemma up_to_last started first asked k path after rounds f : arrives o child K pid started first asked ->
    passes K pid 0 (List.length asked) k (fun n => walks K ip pid 0 n path after) ->
    exists st b cs, itrace_debugger p K o child ip (Some (Z.of_nat k)) (List.length path + rounds) (S (S f)) (StraceModel.start p) =
      match step_loop p K ip rounds (S (S f)) (zlen path) 0 st with (st, Ret _) => (st, Ret None) | (st, Raise x) => (st, Raise x) end /\
      one pid started (t_dbg st) b cs /\ rev cs = asked ++ pass_requests pid 0 k ++ walk_requests pid 0 path /\ after (List.length cs) /\
      rev (t_log st) = first :: counted k 0 ++ walk_lines pid 0 path.
  Proof.
    intros Ha Hp. destruct (arrival (S f) started first asked Ha) as (st1 & R1 & O1 & S1 & L1).
    rewrite <- rev_length in Hp. destruct (pass_ok K p pid started Hl Hpid k _ st1 true (rev asked) f 0 O1 Hp) as (st2 & b2 & cs2 & R2 & O2 & C2 & Hw & L2 & _).
    destruct (walk_ok K p ip pid started Hpid path after st2 b2 cs2 f 0 rounds O2 Hw) as (st3 & b3 & cs3 & R3 & O3 & C3 & Haf & L3).
    exists st3, b3, cs3. split.
    { rewrite (debugger_eq _ _ _ _ R1). unfold itrace, pass. rewrite Nat2Z.id. unfold tbind. rewrite R2. cbv beta iota. rewrite R3. rewrite Z.add_0_l. reflexivity. }
    split; [exact O3|]. split; [rewrite C3, C2, rev_involutive, <- app_assoc; reflexivity|]. split; [exact Haf|].
    rewrite L3, L2, L1, !rev_app_distr, !rev_involutive. cbn. reflexivity.
  Qed.

  Lemma path_to_end started first asked k path a m rounds f : arrives o child K pid started first asked ->
    passes K pid 0 (List.length asked) k (fun n => walks K ip pid 0 n path (last_step K ip pid 0 a m)) -> deadly m ->
    exists st', itrace_main (Some (Z.of_nat k)) (List.length path + S rounds)%nat (S (S f)) (StraceModel.start p) = (st', Ret None) /\
      rev (t_log st') = first :: counted k 0 ++ walk_lines pid 0 (path ++ [a]) ++ [LLine (T "process exit")] /\
      rev (d_calls (t_dbg st')) = asked ++ pass_requests pid 0 k ++ walk_requests pid 0 (path ++ [a]) /\ d_list (t_dbg st') = [].
  Proof.
    intros Ha Hp Hm. destruct (up_to_last started first asked k path _ (S rounds) f Ha Hp) as (st & b & cs & R & O & C & Hlast & L).
    destruct (end_ok K p ip pid started Hl Hpid st b cs f (zlen path) rounds a m O Hlast Hm) as (st' & R' & D' & C' & L').
    exists st'. rewrite R' in R. split.
    { unfold ItraceModel.itrace_main, main_of, tbind, ttry. rewrite R. unfold tdbg, quit, dbind, dget_state. rewrite D'. cbn. destruct st'. reflexivity. }
    split; [|split; [rewrite C'; cbn [rev]; rewrite C, walk_requests_app, <- !app_assoc; reflexivity|exact D']].
    rewrite L'. cbn [rev]. rewrite rev_app_distr, L, rev_involutive, walk_lines_app, Z.add_0_l. cbn [app]. rewrite <- !app_assoc. reflexivity.
  Qed.
  Lemma path_to_signal started first asked k path a s rounds f : arrives o child K pid started first asked ->
    passes K pid 0 (List.length asked) k (fun n => walks K ip pid 0 n path (fun n => last_step K ip pid 0 a (Stopped s) n /\
      if started then k_do K (2 + n) (KCont 0 pid 9) = Ok tt /\ exists core, reports K pid (3 + n) (Killed 9 core)
      else k_do K (2 + n) (KDetach 0 pid) = Ok tt)) -> 1 <= s < 128 -> s <> 5 ->
    exists st', itrace_main (Some (Z.of_nat k)) (List.length path + S rounds)%nat (S (S f)) (StraceModel.start p) = (st', Ret None) /\
      rev (t_log st') = first :: counted k 0 ++ walk_lines pid 0 (path ++ [a]) ++ [LLine (T "died with signal " ++ str_int s)] /\
      rev (d_calls (t_dbg st')) = asked ++ pass_requests pid 0 k ++ walk_requests pid 0 (path ++ [a]) ++
        (if started then [KCont 0 pid 9; KWait pid 0] else [KDetach 0 pid]) /\ d_list (t_dbg st') = [].
  Proof.
    intros Ha Hp Hs H5. destruct (up_to_last started first asked k path _ (S rounds) f Ha Hp) as (st & b & cs & R & O & C & [Hlast Hq] & L).
    destruct (signal_ok K p ip pid started Hpid st b cs f (zlen path) rounds a s O Hlast Hs H5) as (st' & R' & O' & L').
    rewrite R' in R.
    assert (exists d', quit K p (S (S f)) (t_dbg st') = (d', Ret tt) /\ d_list d' = [] /\
      rev (d_calls d') = asked ++ pass_requests pid 0 k ++ walk_requests pid 0 (path ++ [a]) ++ (if started then [KCont 0 pid 9; KWait pid 0] else [KDetach 0 pid])) as (d' & Q1 & Q2 & Q3).
    { destruct started.
      - destruct Hq as (Q1 & core & Q2). destruct (quit_started K p pid true Hl Hpid (t_dbg st') _ f core eq_refl O' Q1 Q2) as (d' & D1 & D2 & D3).
        exists d'. split; [exact D1|]. split; [exact D2|]. rewrite D3. cbn [rev]. rewrite C, walk_requests_app, <- !app_assoc. reflexivity.
      - destruct (quit_attached K p pid false (t_dbg st') _ true (S (S f)) eq_refl O' Hq) as (d' & D1 & D2 & D3).
        exists d'. split; [exact D1|]. split; [exact D2|]. rewrite D3. cbn [rev]. rewrite C, walk_requests_app, <- !app_assoc. reflexivity. }
    exists (set_dbg st' d'). split.
    { unfold ItraceModel.itrace_main, main_of, tbind, ttry. rewrite R. unfold tdbg. rewrite Q1. reflexivity. }
    split; [|split; [exact Q3|exact Q2]].
    cbn [t_log set_dbg]. rewrite L'. cbn [rev]. rewrite rev_app_distr, L, rev_involutive, walk_lines_app, Z.add_0_l. cbn [app]. rewrite <- !app_assoc. reflexivity.
  Qed.
  (** The program ends during the system calls. *)
  Lemma path_short started first asked k more m rounds f : arrives o child K pid started first asked ->
    passes K pid 0 (List.length asked) k (last_call K pid 0 m) -> deadly m ->
    exists st', itrace_main (Some (Z.of_nat (k + S more))) rounds (S (S f)) (StraceModel.start p) = (st', Ret (Some (match m with Exited c => c | _ => 0 end))) /\
      rev (t_log st') = first :: counted (S k) 0 ++ [end_line ns pid m] /\
      rev (d_calls (t_dbg st')) = asked ++ pass_requests pid 0 (S k) /\ d_list (t_dbg st') = [].
  Proof.
    intros Ha Hp Hm. destruct (arrival (S f) started first asked Ha) as (st1 & R1 & O1 & S1 & L1).
    rewrite <- rev_length in Hp. destruct (pass_end K p pid started Hl Hpid k st1 true (rev asked) f 0 m more O1 Hp) as (st2 & R2 & D2 & C2 & P2 & L2 & S2).
    assert (itrace_debugger p K o child ip (Some (Z.of_nat (k + S more))) rounds (S (S f)) (StraceModel.start p) = (st2, Raise (XEvent (ProcessExit 0%nat (exit_signal m) (exit_code m))))) as R.
    { rewrite (debugger_eq _ _ _ _ R1). unfold itrace, pass. rewrite Nat2Z.id. unfold tbind. rewrite R2. reflexivity. }
    eexists. split.
    { unfold ItraceModel.itrace_main, main_of, tbind, ttry. rewrite R. unfold handle_exit, tbind, tget. unfold state_of. rewrite S2, S1. cbn [dget]. change (ss_syscall cleared) with (@None syscall_call).
      unfold tret, tlog. cbv beta iota. unfold tdbg. cbn [t_dbg]. unfold quit, dbind, dget_state. rewrite D2. cbn [rev quit_loop]. unfold dret.
      rewrite P2. destruct m; try contradiction; reflexivity. }
    cbn [set_dbg t_log t_dbg]. split; [|split; [rewrite C2, rev_involutive; reflexivity|exact D2]].
    cbn [rev]. rewrite L2, L1, rev_app_distr, rev_involutive. cbn [rev app]. rewrite <- ?app_assoc.
    destruct m; try contradiction; reflexivity.
  Qed.
End Whole.
