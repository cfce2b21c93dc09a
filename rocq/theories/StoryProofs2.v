(** * StoryProofs2: strace.py from the start of the program to its end (C121). *)
From Coq Require Import ZArith List Ascii String Bool Lia.
From Verif Require Import PyBase PyFacts Platform IntModel RegModel SigModel ToolsModel ArgModel DbgModel DbgSpec DbgProofs DbgProofs2 DbgProofs3 DbgProofs4
  SysModel SysSpec StraceModel StraceSpec StraceProofs StraceProofs2 StraceProofs5 StorySpec StoryProofs.
Import ListNotations.
Open Scope Z_scope.

Lemma linux_events p : running_linux p = true -> has_ptrace_events p = true.
Proof. intros H. unfold has_ptrace_events. now rewrite H. Qed.
Lemma all_options_nonzero o : (all_options o =? 0) = false.
Proof.
  apply Z.eqb_neq. unfold all_options. intros H. apply Z.lor_eq_0_l in H. discriminate.
Qed.

Section Add.
  Context (K : dkernel) (p : platform) (Hl : running_linux p = true) (pid : Z) (Hpid : pid <> 0).
  Lemma add_alone f (a : bool) d s : d_procs d = [] -> d_dict d = [] -> d_list d = [] -> d_sysgood d = true ->
    (d_options d =? 0) = false -> s = 5 \/ s = 19 ->
    let cs := (if a then [] else [KAttach pid]) ++ d_calls d in
    (a = false -> k_do K (List.length (d_calls d)) (KAttach pid) = Ok tt) ->
    reports K pid (List.length cs) (Stopped s) ->
    k_do K (S (List.length cs)) (KSetOptions 0 pid (d_options d)) = Ok tt ->
    exists d', addProcess K p (S f) pid a None false d = (d', Ret 0%nat) /\
      alone pid 0%nat (d_trace_exec d) d' (2 + List.length cs) (KSetOptions 0 pid (d_options d) :: KWait pid 0 :: cs) /\
      d_options d' = d_options d /\ List.length (d_procs d') = 1%nat.
  Proof.
    intros Hp Hd Hlist Hg Ho Hs cs Ha Hw Hopt. rewrite add_eq; [|rewrite Hd; reflexivity|intros E; exists tt; now apply Ha].
    cbv zeta. rewrite Hp. cbn [List.length]. set (d1 := DbgProofs4.start pid a None false d).
    assert (alone pid 0%nat (d_trace_exec d) d1 (List.length cs) cs) as A1.
    { unfold d1, DbgProofs4.start, enrol, cs. destruct a; cbn; rewrite ?Hp, ?Hd, ?Hlist; cbn; repeat split; auto; eexists; repeat split. }
    unfold handshake, waitSignals, waitSignals_, wait_event_query, dbind.
    rewrite (wait_signal K p pid 0%nat (d_trace_exec d) Hpid d1 (List.length cs) cs s) by (auto; lia).
    set (d2 := with_stopped _ 0%nat true). assert (alone pid 0%nat (d_trace_exec d) d2 (S (List.length cs)) (KWait pid 0 :: cs)) as A2 by (apply alone_stopped, alone_call; exact A1).
    assert (existsb (Z.eqb s) [SIGTRAP; SIGSTOP] = true) as ->. { destruct Hs; subst; reflexivity. }
    unfold dret. cbn [orb]. cbv beta iota zeta.
    assert (d_options d2 = d_options d) as Hd2. { unfold d2, d1, DbgProofs4.start, enrol. destruct a; reflexivity. }
    rewrite Hd2, Ho, (linux_events p Hl). cbn [negb andb].
    unfold setoptions, dbind, get_proc. pose proof A2 as (_ & _ & (q & Q1 & Q2 & _) & _ & _ & F & G). rewrite Q1, (linux_events p Hl), Q2. cbn [negb].
    unfold request. rewrite F, G, Hopt. eexists. split; [reflexivity|]. split; [apply alone_call; exact A2|].
    unfold d2, d1, DbgProofs4.start, enrol. destruct a; cbn; rewrite Hp; auto.
  Qed.
End Add.

Section Whole.
  Context (p : platform) (ns : namespace) (repr_fs : list byte -> text) (errorcode : list (Z * text)) (strerror : Z -> text)
          (K : dkernel) (stops : nat -> nat -> stop) (o : soptions) (only : list text) (child : res Z) (pid : Z)
          (Hl : running_linux p = true) (Hpid : pid <> 0).
  Notation strace_main := (strace_main p ns repr_fs errorcode strerror K stops o only child).
  Notation story := (story p ns repr_fs errorcode strerror o only pid 0).
  Notation end_lines := (end_lines p ns repr_fs o only pid 0).

  (** The process is created or attached. *)
  Lemma beginning f first asked : begins o child K pid first asked ->
    exists st1 cs, (st <~ setupDebugger p o; createProcess p K o child (S f)) (StraceModel.start p) = (st1, Ret (Some 0%nat)) /\
      alone pid 0%nat (s_trace_exec o) (t_dbg st1) (List.length cs) cs /\ asked = rev (KSyscall 0 pid 0 :: cs) /\ resumes K pid 0 (List.length cs) 0 /\
      t_sys st1 = [] /\ t_log st1 = [first] /\ d_options (t_dbg st1) = all_options o /\ List.length (d_procs (t_dbg st1)) = 1%nat.
  Proof.
    intros Hb. unfold tbind. destruct (setup_options p o (StraceModel.start p) (linux_events p Hl)) as (d & -> & Do & Df & De & Dc & Ds & Dp & Dd & Dl & Dcs).
    assert (d_calls d = []) as Hc. { rewrite Dcs. unfold StraceModel.start, new_debugger, enableSysgood. destruct (negb (has_ptrace_events p)); reflexivity. }
    assert (d_options d = all_options o) as Hopts.
    { rewrite Do. unfold StraceModel.start, new_debugger, enableSysgood. cbn [t_dbg]. rewrite (linux_events p Hl). reflexivity. }
    assert (d_sysgood d = true) as Hs. { rewrite Ds. unfold StraceModel.start, new_debugger, enableSysgood. cbn [t_dbg]. rewrite (linux_events p Hl). reflexivity. }
    assert (d_trace_exec d = s_trace_exec o) as Het. { rewrite De. unfold StraceModel.start, new_debugger, enableSysgood. cbn [t_dbg]. rewrite (linux_events p Hl). reflexivity. }
    assert (d_procs d = []) as Hp. { rewrite Dp. unfold StraceModel.start, new_debugger, enableSysgood. destruct (negb (has_ptrace_events p)); reflexivity. }
    assert (d_dict d = []) as Hd. { rewrite Dd. unfold StraceModel.start, new_debugger, enableSysgood. destruct (negb (has_ptrace_events p)); reflexivity. }
    assert (d_list d = []) as Hli. { rewrite Dl. unfold StraceModel.start, new_debugger, enableSysgood. destruct (negb (has_ptrace_events p)); reflexivity. }
    assert ((d_options d =? 0) = false) as Hnz. { rewrite Hopts. apply all_options_nonzero. }
    cbv beta iota. set (st := with_debugger (StraceModel.start p) d). assert (t_dbg st = d) as Htd by reflexivity.
    destruct Hb as [x l Hch Hsp Hprog B1 B2 B3|Hsp B0 B1 B2 B3].
    - pose proof (add_alone K p Hl pid Hpid f true d 5 Hp Hd Hli Hs Hnz (or_introl eq_refl)) as Hadd. cbv zeta in Hadd. rewrite Hc, Hopts, Het in Hadd.
      destruct Hadd as (d' & Hadd & Hal & Hdo & Hdn); [discriminate|exact B1|exact B2|].
      pose proof (create_program p K o child (S f) st _ pid Hsp (child_line o child x l pid st Hch Hprog)) as Hcr. cbn [wrote t_dbg] in Hcr.
      rewrite Htd, Hadd in Hcr. inversion Hcr as [d2 i2 E1 E2| |]. 
      eexists. exists [KSetOptions 0 pid (all_options o); KWait pid 0]. split; [reflexivity|]. split; [exact Hal|]. cbn. auto 7.
    - pose proof (add_alone K p Hl pid Hpid f false d 19 Hp Hd Hli Hs Hnz (or_intror eq_refl)) as Hadd. cbv zeta in Hadd. rewrite Hc, Hopts, Het in Hadd.
      destruct Hadd as (d' & Hadd & Hal & Hdo & Hdn); [intros _; exact B0|exact B1|exact B2|].
      pose proof (create_attach p K o child (S f) pid st Hsp Hpid) as Hcr. cbv zeta in Hcr.
      rewrite Htd, Hadd in Hcr. inversion Hcr as [d2 i2 E1 E2| |].
      eexists. exists [KSetOptions 0 pid (all_options o); KWait pid 0; KAttach pid]. split; [reflexivity|]. split; [exact Hal|]. cbn. auto 7.
  Qed.

  Lemma whole_run acts e first asked l le f rounds :
    begins o child K pid first asked -> performs K stops pid 0 (List.length asked) acts (ends K stops pid 0 e) ->
    story acts l -> end_lines e le -> (3 * List.length acts + 3 <= rounds)%nat ->
    exists st', strace_main rounds (S (S f)) (StraceModel.start p) = (st', Ret (Some (final_code acts e))) /\
      rev (t_log st') = first :: l ++ le /\
      rev (d_calls (t_dbg st')) = asked ++ flat_map (act_requests pid 0) acts ++ end_requests pid 0 e /\
      d_list (t_dbg st') = [].
  Proof.
    intros Hb Hperf Hst Hend Hr. destruct (beginning (S f) first asked Hb) as (st1 & cs & Hrun & Hal & Hasked & Hres & Hsys & Hlog & _).
    assert (exists st2, syscallTrace p ns repr_fs errorcode strerror K stops o only rounds (S (S f)) 0 st1 = (st2, Ret (final_code acts e)) /\
      d_list (t_dbg st2) = [] /\ d_calls (t_dbg st2) = rev (asked ++ flat_map (act_requests pid 0) acts ++ end_requests pid 0 e) /\
      rev (t_log st2) = first :: l ++ le) as (st2 & Htrace & L2 & C2 & G2).
    { unfold syscallTrace, prepareProcess. unfold tbind at 1, tbind at 1.
      destruct (resumed p K o pid 0 Hl st1 (List.length cs) cs 0 Hal Hres) as (d & -> & Hd). unfold set_ready.
      set (st2 := TState _ _ _ _ _).
      assert (watched o pid 0 st2 (List.length asked) (rev asked) cleared [first]) as Hw.
      { rewrite Hasked, rev_involutive, rev_length. refine (conj Hd (conj eq_refl (conj _ Hlog))). unfold state_of, st2, set_dbg. cbn [t_sys]. now rewrite Hsys. }
      destruct (whole_loop p ns repr_fs errorcode strerror K stops o only pid 0 Hl Hpid acts e _ _ st2 [first] 0 f l le rounds Hw Hperf Hst Hend) as (st3 & R3 & D3 & C3 & G3).
      { assert (rounds_of acts <= 3 * List.length acts)%nat; [|lia]. clear. induction acts as [|a acts IH]; [reflexivity|].
        change (rounds_of (a :: acts)) with (act_rounds a + rounds_of acts)%nat. cbn [List.length]. destruct a; cbn [act_rounds]; lia. }
      exists st3. split; [exact R3|]. split; [exact D3|]. split; [now rewrite C3, <- rev_app_distr|].
      rewrite G3, rev_app_distr, rev_involutive. reflexivity. }
    assert (runDebugger p ns repr_fs errorcode strerror K stops o only child rounds (S (S f)) (StraceModel.start p) = (st2, Ret (Some (final_code acts e)))) as Hrd.
    { unfold runDebugger. unfold tbind in *. destruct (setupDebugger p o (StraceModel.start p)) as [s0 [u|x]]; [|discriminate]. rewrite Hrun, Htrace. reflexivity. }
    exists st2. split; [|split; [exact G2|split; [now rewrite C2, rev_involutive|exact L2]]].
    unfold StraceModel.strace_main, main_of, tbind, ttry. rewrite Hrd. unfold tdbg, quit, dbind, dget_state. rewrite L2. cbn. destruct st2. reflexivity.
  Qed.
End Whole.

(** *** The exit status *)
Lemma program_status acts e : deadly (meaning e) ->
  exit_status (Ret (Some (final_code acts e))) = match meaning e with Exited c => c | _ => signal_code acts 0 mod 256 end.
Proof.
  intros H. cbn [exit_status]. unfold final_code. destruct (meaning e) as [c|s b|s|v]; try reflexivity.
  apply Z.mod_small. exact H.
Qed.
