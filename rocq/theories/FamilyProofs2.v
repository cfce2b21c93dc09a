(** * FamilyProofs2: one round of strace.py with several processes (C123). *)
From Coq Require Import ZArith List Ascii String Bool Lia.
From Verif Require Import PyBase PyFacts Platform IntModel RegModel SigModel ToolsModel ArgModel DbgModel DbgSpec DbgProofs DbgProofs2 DbgProofs3 DbgProofs4
  SysModel SysSpec StraceModel StraceSpec StraceProofs StraceProofs2 StraceProofs5 StorySpec StoryProofs StoryProofs2 FamilySpec FamilyProofs.
Import ListNotations.
Open Scope Z_scope.

Section Rounds.
  Context (p : platform) (ns : namespace) (repr_fs : list byte -> text) (errorcode : list (Z * text)) (strerror : Z -> text)
          (K : dkernel) (stops : nat -> nat -> stop) (o : soptions) (only : list text) (Hl : running_linux p = true).
  Notation family := (family (s_trace_exec o) (all_options o)).
  Notation round := (round p ns repr_fs errorcode strerror K stops o only).
  Notation handle_syscall := (handle_syscall p ns repr_fs errorcode strerror K stops o only).
  Notation displaySyscall := (displaySyscall p ns repr_fs stops o).
  Notation state_event := (state_event p ns repr_fs errorcode strerror K stops o only).
  Notation enters := (enters p).
  Notation with_arguments := (with_arguments p ns repr_fs o).
  Notation entered pid id := (entered p ns repr_fs o only pid id).
  Notation returned pid id := (returned p ns repr_fs errorcode strerror o pid id).
  Notation line_of pid id := (line_of p ns repr_fs o pid id).

  (** Everybody who is alive has been prepared. *)
  Definition ready (st : tstate) (born : nat) (live : list member) : Prop :=
    (forall q, In q live -> is_ready st (m_id q) = true /\ (m_id q < born)%nat) /\ (forall i, (born <= i)%nat -> state_of st i = cleared).
  Definition seen (st : tstate) (born : nat) (live : list member) (cs : list kcall) (log : list tline) : Prop :=
    family (t_dbg st) born live cs /\ ready st born live /\ t_log st = log.
  (** Only the state of [id] has changed, it is now [s]. *)
  Definition moved (st st' : tstate) (id : nat) (s : sstate) : Prop :=
    state_of st' id = s /\ forall i, i <> id -> state_of st' i = state_of st i.

  Lemma pid_member st born live cs q : family (t_dbg st) born live cs -> In q live -> pid_of st (m_id q) = m_pid q.
  Proof. intros Hf Hq. destruct (family_member _ _ _ _ _ _ _ Hf Hq) as (r & R1 & R2 & _). unfold pid_of. rewrite R1. exact R2. Qed.
  Lemma state_other st s i id : i <> id -> state_of (set_sys st (dset Nat.eqb id s (t_sys st))) i = state_of st i.
  Proof. intros H. unfold state_of, set_sys. cbn [t_sys]. rewrite dget_dset_other; [reflexivity|intros; apply Nat.eqb_eq|exact H]. Qed.
  Lemma moved_set st s id : moved st (set_sys st (dset Nat.eqb id s (t_sys st))) id s.
  Proof. split; [apply state_set|]. intros i Hi. now apply state_other. Qed.
  Lemma moved_trans st1 st2 st3 id s s' : moved st1 st2 id s -> moved st2 st3 id s' -> moved st1 st3 id s'.
  Proof. intros (_ & A) (B & C). split; [exact B|]. intros i Hi. rewrite (C i Hi). now apply A. Qed.
  Lemma moved_sys st st' id s : t_sys st' = t_sys st -> state_of st id = s -> moved st st' id s.
  Proof. intros E H. unfold moved, state_of in *. rewrite E. auto. Qed.
  Lemma ready_moved st st' born live id s : ready st born live -> moved st st' id s -> (id < born)%nat -> t_ready st' = t_ready st -> ready st' born live.
  Proof.
    intros (A & B) (_ & M) Hid E. split.
    - intros q Hq. unfold is_ready. rewrite E. now apply A.
    - intros i Hi. rewrite M by lia. now apply B.
  Qed.

  (** *** Parts of a round *)
  Lemma display_member z c c' x st born live cs q : family (t_dbg st) born live cs -> In q live -> stops (List.length cs) (m_id q) = z -> line_of (m_pid q) (m_id q) z c c' x ->
    displaySyscall (m_id q) c st = (TState (t_dbg st) (t_sys st) (t_ready st) (x :: t_log st) (t_seen st), Ret c').
  Proof.
    intros Hf Hq Hz (t & Hfmt & (S1 & S2 & S3 & S4) & ->). pose proof Hf as (_ & _ & _ & _ & F).
    unfold StraceModel.displaySyscall, tbind, tget, tres, the_stop. rewrite F, Hz, Hfmt. unfold tlog, tret. rewrite (pid_member st born live cs q Hf Hq). cbn [fst snd].
    assert (SyscallCall (c_func c') (c_number c) (c_result c) (c_result_text c) (c_instr_pointer c) = c') as ->.
    { destruct c'. cbn in *. congruence. }
    rewrite (line_shown_null p o), S2, S3, S4. reflexivity.
  Qed.
  Lemma entry_event_member a c st cs id s f : d_calls (t_dbg st) = cs -> is_ready st id = true -> state_of st id = s -> ss_exit s = false ->
    stops (List.length cs) id = a -> enters a c ->
    (~ selected o only (f_name (c_func c)) ->
       state_event f id st = (set_sys st (dset Nat.eqb id (SState None (Some (f_name (c_func c))) true) (t_sys st)), Ret None)) /\
    (forall c0, selected o only (f_name (c_func c)) -> with_arguments a c c0 ->
       state_event f id st = (set_sys st (dset Nat.eqb id (SState (Some c0) (Some (f_name (c_func c))) true) (t_sys st)), Ret (Some c0))).
  Proof.
    intros F Hr Hs He Hz (regs & R1 & R2).
    assert (forall s2 r, ss_event p ns repr_fs errorcode strerror K true (Some (ignoreSyscall o only)) (syscall_options o) f id a (s, t_dbg st) = ((s2, t_dbg st), r) ->
      state_event f id st = (set_sys st (dset Nat.eqb id s2 (t_sys st)), r)) as Hev.
    { intros s2 r H. unfold StraceModel.state_event, the_stop. rewrite Hr, F, Hz, Hs, H. destruct st. reflexivity. }
    split.
    - intros Hn. apply Hev. unfold ss_event, sbind at 1, sget. cbn [fst]. rewrite He. unfold ss_enter, sbind at 1, slift. rewrite R1.
      unfold sbind at 1. rewrite R2. unfold sbind at 1, sput. cbn [fst snd ss_exit].
      assert (ignoreSyscall o only c = true) as ->. { destruct (ignoreSyscall o only c) eqn:E; [reflexivity|]. apply ignore_selected in E. contradiction. }
      cbn [negb]. unfold sbind, sget, sret. cbn. reflexivity.
    - intros c0 Hsel (regs' & R1' & R3). rewrite R1 in R1'. injection R1' as <-. apply Hev.
      unfold ss_event, sbind at 1, sget. cbn [fst]. rewrite He. unfold ss_enter, sbind at 1, slift. rewrite R1.
      unfold sbind at 1. rewrite R2. unfold sbind at 1, sput. cbn [fst snd ss_exit].
      apply ignore_selected in Hsel. rewrite Hsel. cbn [negb]. unfold sbind, sget, sret. rewrite R3. cbn. reflexivity.
  Qed.
  Lemma resumed_member st born live cs q s : family (t_dbg st) born live cs -> In q live -> goes_on K (List.length cs) q (filterSignal s) ->
    exists d, proc_syscall p K (m_id q) s st = (set_dbg st d, Ret tt) /\ family d born live (going_on q (filterSignal s) :: cs).
  Proof.
    intros Hf Hq Hk. unfold proc_syscall, tdbg. rewrite (resume_member K p _ _ Hl _ born live cs q s Hf Hq Hk). eexists. split; [reflexivity|].
    apply family_stopped, family_call. exact Hf.
  Qed.

  Section Member.
    Context (F : nat) (code : Z) (st : tstate) (born : nat) (live : list member) (cs : list kcall) (log : list tline) (k : nat) (w : list kcall) (q : member)
            (Hs : seen st born live cs log) (HF : (k + 3 <= F)%nat).
    Notation id := (m_id q).
    Notation pid := (m_pid q).
    Notation n := (List.length w + List.length cs)%nat.
    Let Ew : List.length (rev w ++ cs) = n.
    Proof. now rewrite app_length, rev_length. Qed.

    Lemma entry_round s a s' l : state_of st id = s -> ss_exit s = false ->
      awaits K live 1 k (List.length cs) w q CALL_STOP -> stops n id = a -> goes_on K n q 0 -> entered pid id a s' l ->
      exists st', round F code st = (st', Ret code) /\ seen st' born live (going_on q 0 :: rev w ++ cs) (rev l ++ log) /\ moved st st' id s'.
    Proof.
      intros Hst He Hw Hz Hres Hen. destruct Hs as (Hf & Hr & Hlog). pose proof (awaits_In _ _ _ _ _ _ _ _ Hw) as Hq.
      unfold StraceModel.round, tbind at 1, tdbg. rewrite (any_call K p _ _ Hl _ born live cs k w q Hf F HF Hw).
      set (d1 := with_stopped _ id true). assert (family d1 born live (rev w ++ cs)) as Hf1 by (apply family_stopped, family_asked; exact Hf).
      unfold tbind at 1, tsee. cbn [fst snd handle_event set_dbg t_dbg t_sys t_ready t_log t_seen].
      set (st1 := TState d1 _ _ _ _). assert (state_of st1 id = s) as Hs1 by exact Hst. assert (moved st st1 id s) as M1 by (apply moved_sys; auto).
      destruct Hr as (Hr & Hr0). destruct (Hr q Hq) as (Hrq & Hlt). assert (is_ready st1 id = true) as Hr1 by exact Hrq.
      assert (ready st born live) as Hrd by exact (conj Hr Hr0).
      unfold tbind at 1, StraceModel.handle_syscall, tbind at 1. rewrite <- Ew in Hz, Hres. pose proof Hf1 as (_ & _ & _ & _ & F1).
      destruct Hen as [c Hc Hn|c c0 c1 l Hc Hsel Hargs Hann].
      - destruct (entry_event_member a c st1 _ id s F F1 Hr1 Hs1 He Hz Hc) as [-> _]; [|exact Hn]. unfold tbind at 1, tret at 1.
        set (st2 := set_sys st1 _). assert (moved st st2 id (SState None (Some (f_name (c_func c))) true)) as M2 by (eapply moved_trans; [exact M1|apply moved_set]).
        destruct (resumed_member st2 born live _ q 0 Hf1 Hq Hres) as (d & -> & Hd).
        eexists. split; [reflexivity|]. split; [|exact M2]. refine (conj Hd (conj _ Hlog)). exact (ready_moved st _ born live id _ Hrd M2 Hlt eq_refl).
      - destruct (entry_event_member a c st1 _ id s F F1 Hr1 Hs1 He Hz Hc) as [_ Hev]. rewrite (Hev c0 Hsel Hargs).
        assert (c_result c0 = None) as ->.
        { destruct Hargs as (regs & _ & Hargs). rewrite (enter_result _ _ _ _ _ _ _ _ _ Hargs). eapply new_result; eauto. }
        cbn [orb]. set (st2 := set_sys st1 _). assert (moved st st2 id (SState (Some c0) (Some (f_name (c_func c))) true)) as M2 by (eapply moved_trans; [exact M1|apply moved_set]).
        unfold StorySpec.announced in Hann. destruct (s_enter o).
        + destruct Hann as (x & Hx & ->). unfold tbind at 1, tbind at 1. rewrite (display_member a c0 c1 x st2 born live _ q Hf1 Hq Hz Hx).
          unfold keep_call. cbv zeta. match goal with |- context [state_of ?s3 id] => set (st3 := s3) end.
          assert (state_of st3 id = SState (Some c0) (Some (f_name (c_func c))) true) as E3. { exact (state_set id st1 _). }
          rewrite E3. cbn [ss_syscall ss_name ss_exit]. set (st4 := set_sys st3 _).
          assert (moved st st4 id (SState (Some c1) (Some (f_name (c_func c))) true)) as M4.
          { eapply moved_trans; [exact M2|]. eapply moved_trans; [apply (moved_sys st2 st3); [reflexivity|exact E3]|apply moved_set]. }
          destruct (resumed_member st4 born live _ q 0 Hf1 Hq Hres) as (d & -> & Hd).
          eexists. split; [reflexivity|]. split; [|exact M4]. refine (conj Hd (conj _ _)); [exact (ready_moved st _ born live id _ Hrd M4 Hlt eq_refl)|]. cbn. now rewrite Hlog.
        + destruct Hann as (-> & ->). unfold tbind at 1, tret at 1.
          destruct (resumed_member st2 born live _ q 0 Hf1 Hq Hres) as (d & -> & Hd).
          eexists. split; [reflexivity|]. split; [|exact M2]. refine (conj Hd (conj _ Hlog)). exact (ready_moved st _ born live id _ Hrd M2 Hlt eq_refl).
    Qed.

    Lemma return_round oc name b l : state_of st id = SState oc (Some name) true -> (name = T "execve" -> s_trace_exec o = true) ->
      awaits K live 1 k (List.length cs) w q CALL_STOP -> stops n id = b -> goes_on K n q 0 -> returned pid id b b oc l ->
      exists st', round F code st = (st', Ret code) /\ seen st' born live (going_on q 0 :: rev w ++ cs) (rev l ++ log) /\ moved st st' id cleared.
    Proof.
      intros Hst Hname Hw Hz Hres Hret. destruct Hs as (Hf & Hr & Hlog). pose proof (awaits_In _ _ _ _ _ _ _ _ Hw) as Hq.
      unfold StraceModel.round, tbind at 1, tdbg. rewrite (any_call K p _ _ Hl _ born live cs k w q Hf F HF Hw).
      set (d1 := with_stopped _ id true). assert (family d1 born live (rev w ++ cs)) as Hf1 by (apply family_stopped, family_asked; exact Hf).
      unfold tbind at 1, tsee. cbn [fst snd handle_event set_dbg t_dbg t_sys t_ready t_log t_seen].
      set (st1 := TState d1 _ _ _ _). assert (state_of st1 id = SState oc (Some name) true) as Hs1 by exact Hst.
      assert (moved st st1 id (SState oc (Some name) true)) as M1 by (apply moved_sys; auto).
      destruct Hr as (Hr & Hr0). destruct (Hr q Hq) as (Hrq & Hlt). assert (is_ready st1 id = true) as Hr1 by exact Hrq.
      assert (ready st born live) as Hrd by exact (conj Hr Hr0).
      unfold tbind at 1, StraceModel.handle_syscall, tbind at 1. rewrite <- Ew in Hz, Hres. pose proof Hf1 as (_ & _ & Et & _ & F1).
      assert (forall oc2, match oc, oc2 with
                          | None, None => True
                          | Some c1, Some c2 => exists t, exit_ p errorcode strerror (st_result b) c1 = Ok (c2, t)
                          | _, _ => False end ->
        state_event F id st1 = (set_sys st1 (dset Nat.eqb id cleared (t_sys st1)), Ret oc2)) as Hev.
      { intros oc2 H. unfold StraceModel.state_event, the_stop. rewrite Hr1. cbn [t_dbg st1]. unfold the_stop. change (t_dbg st1) with d1.
        rewrite F1, Hz, Hs1. unfold ss_event, sbind at 1, sget. cbn [fst ss_exit]. unfold ss_exit_, sbind at 1, sget. cbn [fst ss_syscall].
        assert (true && text_eqb name (T "execve") && negb (d_trace_exec d1) = false) as En.
        { rewrite Et. cbn [andb]. destruct (text_eqb name (T "execve")) eqn:E; [|reflexivity]. apply text_eqb_eq in E. now rewrite (Hname E). }
        destruct oc as [c1|], oc2 as [c2|]; try contradiction.
        - destruct H as [t H]. unfold sbind, slift. rewrite H. unfold sput, sdbg, dget_state, sret. cbn [fst snd ss_syscall ss_name get]. rewrite En. cbn. reflexivity.
        - unfold sbind, slift, sput, sdbg, dget_state, sret. cbn [fst snd ss_syscall ss_name get]. rewrite En. cbn. reflexivity. }
      set (st2 := set_sys st1 (dset Nat.eqb id cleared (t_sys st1))) in *. assert (moved st st2 id cleared) as M2 by (eapply moved_trans; [exact M1|apply moved_set]).
      destruct Hret as [|c1 c2 c3 t x Hx Hline].
      - rewrite (Hev None I). unfold tbind at 1, tret at 1.
        destruct (resumed_member st2 born live _ q 0 Hf1 Hq Hres) as (d & -> & Hd).
        eexists. split; [reflexivity|]. split; [|exact M2]. refine (conj Hd (conj _ Hlog)). exact (ready_moved st _ born live id _ Hrd M2 Hlt eq_refl).
      - rewrite (Hev (Some c2)) by eauto. destruct (exit_result _ _ _ _ _ _ _ Hx) as [v Hv]. rewrite Hv. cbn [orb].
        unfold tbind at 1, tbind at 1. rewrite (display_member b c2 c3 x st2 born live _ q Hf1 Hq Hz Hline).
        rewrite keep_cleared by (exact (state_set id st1 _)). match goal with |- context [proc_syscall p K id 0 ?s3] => set (st3 := s3) end.
        assert (moved st st3 id cleared) as M3 by exact M2.
        destruct (resumed_member st3 born live _ q 0 Hf1 Hq Hres) as (d & -> & Hd). eexists. split; [reflexivity|]. split; [|exact M3].
        refine (conj Hd (conj _ _)); [exact (ready_moved st _ born live id _ Hrd M3 Hlt eq_refl)|]. cbn. now rewrite Hlog.
    Qed.

    Lemma executed_round oc b z l : state_of st id = SState oc (Some (T "execve")) true -> s_trace_exec o = false ->
      awaits K live 1 k (List.length cs) w q CALL_STOP -> stops n id = b -> goes_on K n q 0 ->
      tells K (1 + n) q (Stopped 5) -> stops (2 + n)%nat id = z -> goes_on K (2 + n) q 0 -> returned pid id b z oc l ->
      exists st', round F code st = (st', Ret code) /\ seen st' born live (going_on q 0 :: hanging q :: going_on q 0 :: rev w ++ cs) (rev l ++ log) /\ moved st st' id cleared.
    Proof.
      intros Hst Hte Hw Hz Hres Hk2 Hz2 Hres2 Hret. destruct Hs as (Hf & Hr & Hlog). pose proof (awaits_In _ _ _ _ _ _ _ _ Hw) as Hq.
      unfold StraceModel.round, tbind at 1, tdbg. rewrite (any_call K p _ _ Hl _ born live cs k w q Hf F HF Hw).
      set (d1 := with_stopped _ id true). assert (family d1 born live (rev w ++ cs)) as Hf1 by (apply family_stopped, family_asked; exact Hf).
      unfold tbind at 1, tsee. cbn [fst snd handle_event set_dbg t_dbg t_sys t_ready t_log t_seen].
      set (st1 := TState d1 _ _ _ _). assert (state_of st1 id = SState oc (Some (T "execve")) true) as Hs1 by exact Hst.
      assert (moved st st1 id (SState oc (Some (T "execve")) true)) as M1 by (apply moved_sys; auto).
      destruct Hr as (Hr & Hr0). destruct (Hr q Hq) as (Hrq & Hlt). assert (is_ready st1 id = true) as Hr1 by exact Hrq.
      assert (ready st born live) as Hrd by exact (conj Hr Hr0).
      unfold tbind at 1, StraceModel.handle_syscall, tbind at 1. pose proof Hf1 as (_ & _ & Et & _ & F1).
      assert (exists d2, skip_exec_trap p K F id d1 = (d2, Ret tt) /\ family d2 born live (hanging q :: going_on q 0 :: rev w ++ cs)) as (d2 & Hskip & Hf2).
      { unfold skip_exec_trap, dbind at 1. rewrite (resume_member K p _ _ Hl d1 born live (rev w ++ cs) q 0 Hf1 Hq) by (rewrite Ew; exact Hres). set (d2 := with_stopped _ id false).
        assert (family d2 born live (going_on q 0 :: rev w ++ cs)) as Hf2 by (apply family_stopped, family_call; exact Hf1).
        unfold dbind at 1, get_proc. destruct (family_member _ _ _ _ _ _ _ Hf2 Hq) as (r & Q1 & Q2 & _). rewrite Q1, Q2. unfold dbind. destruct F as [|F']; [lia|].
        rewrite (member_trap K p _ _ Hl _ born live (going_on q 0 :: rev w ++ cs) q F' Hf2 Hq) by (cbn [List.length]; rewrite Ew; exact Hk2).
        eexists. split; [reflexivity|]. apply family_stopped, family_call. exact Hf2. }
      assert (forall oc2, match oc, oc2 with
                          | None, None => True
                          | Some c1, Some c2 => exists t, exit_ p errorcode strerror (st_result b) c1 = Ok (c2, t)
                          | _, _ => False end ->
        state_event F id st1 = (set_sys (set_dbg st1 d2) (dset Nat.eqb id cleared (t_sys st1)), Ret oc2)) as Hev.
      { intros oc2 H. unfold StraceModel.state_event, the_stop. rewrite Hr1. cbn [t_dbg st1]. unfold the_stop. change (t_dbg st1) with d1.
        rewrite F1, Ew, Hz, Hs1. unfold ss_event, sbind at 1, sget. cbn [fst ss_exit]. unfold ss_exit_, sbind at 1, sget. cbn [fst ss_syscall].
        assert (text_eqb (T "execve") (T "execve") = true) as En by apply text_eqb_refl.
        destruct oc as [c1|], oc2 as [c2|]; try contradiction.
        - destruct H as [t H]. unfold sbind, slift. rewrite H. unfold sput, sdbg, dget_state, sret. cbn [fst snd ss_syscall ss_name get]. rewrite En, Et, Hte. cbn [andb negb]. cbn [fst snd]. rewrite Hskip. cbn. reflexivity.
        - unfold sbind, slift, sput, sdbg, dget_state, sret. cbn [fst snd ss_syscall ss_name get]. rewrite En, Et, Hte. cbn [andb negb]. cbn [fst snd]. rewrite Hskip. cbn. reflexivity. }
      set (st2 := set_sys (set_dbg st1 d2) (dset Nat.eqb id cleared (t_sys st1))) in *.
      assert (moved st st2 id cleared) as M2 by (eapply moved_trans; [exact M1|exact (moved_set (set_dbg st1 d2) cleared id)]).
      assert (goes_on K (List.length (hanging q :: going_on q 0 :: rev w ++ cs)) q (filterSignal 0)) as Hres3 by (cbn [List.length]; rewrite Ew; exact Hres2).
      destruct Hret as [|c1 c2 c3 t x Hx Hline].
      - rewrite (Hev None I). unfold tbind at 1, tret at 1.
        destruct (resumed_member st2 born live _ q 0 Hf2 Hq Hres3) as (d & -> & Hd).
        eexists. split; [reflexivity|]. split; [|exact M2]. refine (conj Hd (conj _ Hlog)). exact (ready_moved st _ born live id _ Hrd M2 Hlt eq_refl).
      - rewrite (Hev (Some c2)) by eauto. destruct (exit_result _ _ _ _ _ _ _ Hx) as [v Hv]. rewrite Hv. cbn [orb].
        unfold tbind at 1, tbind at 1. rewrite (display_member z c2 c3 x st2 born live (hanging q :: going_on q 0 :: rev w ++ cs) q Hf2 Hq ltac:(cbn [List.length]; rewrite Ew; exact Hz2) Hline).
        rewrite keep_cleared by (exact (state_set id (set_dbg st1 d2) _)). match goal with |- context [proc_syscall p K id 0 ?s3] => set (st3 := s3) end.
        assert (moved st st3 id cleared) as M3 by exact M2.
        destruct (resumed_member st3 born live _ q 0 Hf2 Hq Hres3) as (d & -> & Hd). eexists. split; [reflexivity|]. split; [|exact M3].
        refine (conj Hd (conj _ _)); [exact (ready_moved st _ born live id _ Hrd M3 Hlt eq_refl)|]. cbn. now rewrite Hlog.
    Qed.

    Lemma signal_round signum : 1 <= signum < 128 -> awaits K live 1 k (List.length cs) w q (Stopped signum) ->
      k_do K n (KDisplay id signum) = Ok tt -> goes_on K (1 + n) q (if signum =? 5 then 0 else signum) ->
      exists st', round F code st = (st', Ret (128 + signum)) /\
        seen st' born live (going_on q (if signum =? 5 then 0 else signum) :: KDisplay id signum :: rev w ++ cs) log /\ moved st st' id (state_of st id).
    Proof.
      intros Hsig Hw Hd Hres. destruct Hs as (Hf & Hr & Hlog). pose proof (awaits_In _ _ _ _ _ _ _ _ Hw) as Hq.
      unfold StraceModel.round, tbind at 1, tdbg. rewrite (any_signal K p _ _ Hl _ born live cs k w q Hf F HF signum Hw Hsig).
      set (d1 := with_stopped _ id true). assert (family d1 born live (rev w ++ cs)) as Hf1 by (apply family_stopped, family_asked; exact Hf).
      unfold tbind at 1, tsee. cbn [fst snd handle_event set_dbg t_dbg t_sys t_ready t_log t_seen].
      unfold tbind at 1, tdbg. cbn [t_dbg]. unfold request. pose proof Hf1 as (_ & _ & _ & _ & F1). rewrite F1, Ew, Hd. cbn [set_dbg]. unfold tbind at 1.
      match goal with |- context [proc_syscall p K id signum ?s3] => set (st3 := s3) end.
      destruct (resumed_member st3 born live (KDisplay id signum :: rev w ++ cs) q signum) as (d & -> & Hdd); [apply family_call; exact Hf1|exact Hq|cbn [List.length]; rewrite Ew; exact Hres|].
      assert (moved st (set_dbg st3 d) id (state_of st id)) as M by (apply moved_sys; reflexivity).
      eexists. split; [reflexivity|]. split; [|exact M]. refine (conj Hdd (conj _ Hlog)). destruct (proj1 Hr q Hq) as (_ & Hlt). exact (ready_moved st _ born live id _ Hr M Hlt eq_refl).
    Qed.
    Lemma execution_round : awaits K live 1 k (List.length cs) w q (TraceEvent 4) -> goes_on K n q 0 ->
      exists st', round F code st = (st', Ret code) /\ seen st' born live (going_on q 0 :: rev w ++ cs) (execution_line pid :: log) /\ moved st st' id (state_of st id).
    Proof.
      intros Hw Hres. destruct Hs as (Hf & Hr & Hlog). pose proof (awaits_In _ _ _ _ _ _ _ _ Hw) as Hq.
      unfold StraceModel.round, tbind at 1, tdbg. rewrite (any_execution K p _ _ Hl _ born live cs k w q Hf F HF Hw).
      set (d1 := asked _ _). assert (family d1 born live (rev w ++ cs)) as Hf1 by (apply family_asked; exact Hf).
      unfold tbind at 1, tsee. cbn [fst snd handle_event set_dbg t_dbg t_sys t_ready t_log t_seen].
      set (st1 := TState d1 _ _ _ _). unfold tbind at 1, handle_execution, tbind at 1, tget. unfold tbind at 1, tlog.
      rewrite (pid_member st1 _ _ _ q Hf1 Hq). match goal with |- context [proc_syscall p K id 0 ?s3] => set (st3 := s3) end.
      rewrite <- Ew in Hres. destruct (resumed_member st3 born live _ q 0 Hf1 Hq Hres) as (d & -> & Hd).
      assert (moved st (set_dbg st3 d) id (state_of st id)) as M by (apply moved_sys; reflexivity).
      eexists. split; [reflexivity|]. split; [|exact M]. destruct (proj1 Hr q Hq) as (_ & Hlt).
      refine (conj Hd (conj (ready_moved st _ born live id _ Hr M Hlt eq_refl) _)). cbn. now rewrite Hlog.
    Qed.
    Lemma fork_round kind new s : let m := Member born new (kind =? 3) in In kind [1; 2; 3] -> In s [5; 19] -> new <> 0 -> ~ In new (map m_pid live) ->
      awaits K live 1 k (List.length cs) w q (TraceEvent kind) -> k_msg K n pid = Ok new ->
      tells K (1 + n) m (Stopped s) -> k_do K (2 + n) (KSetOptions born new (all_options o)) = Ok tt -> goes_on K (3 + n) m 0 -> goes_on K (4 + n) q 0 ->
      exists st', round F code st = (st', Ret code) /\
        seen st' (S born) (live ++ [m]) (going_on q 0 :: going_on m 0 :: KSetOptions born new (all_options o) :: hanging m :: KEventMsg id pid :: rev w ++ cs) (birth_line born new :: log) /\
        moved st st' id (state_of st id).
    Proof.
      intros m Hkind Hsig Hnew Hfresh Hw Hmsg Htell Hset Hres1 Hres2. destruct Hs as (Hf & Hr & Hlog). pose proof (awaits_In _ _ _ _ _ _ _ _ Hw) as Hq.
      assert (all_options o <> 0) as Ho by (apply Z.eqb_neq, all_options_nonzero).
      assert (forall x, In x live -> (m_id x < born)%nat) as Hb by (intros x Hx; now apply (proj1 Hr)).
      destruct (any_fork K p _ _ Hl (t_dbg st) born live cs k w q kind new s F Ho Hf HF Hkind Hsig Hnew Hfresh Hb Hw Hmsg Htell Hset) as (d1 & Hwait & Hf1 & (r & R1 & R2)).
      fold m in Hf1.
      unfold StraceModel.round, tbind at 1, tdbg. rewrite Hwait.
      unfold tbind at 1, tsee. cbn [fst snd handle_event set_dbg t_dbg t_sys t_ready t_log t_seen].
      set (st1 := TState d1 _ _ _ _). unfold tbind at 1, handle_new, tbind at 1, tget. unfold tbind at 1, tlog.
      assert (In m (live ++ [m])) as Hm by (apply in_app_iff; right; now left). assert (In q (live ++ [m])) as Hq' by (apply in_app_iff; now left).
      pose proof (pid_member st1 _ _ _ m Hf1 Hm) as Hp1. cbn [m_id m_pid m] in Hp1. rewrite Hp1.
      match goal with |- context [tbind (prepareProcess p K born) _ ?s3] => set (st3 := s3) end.
      unfold tbind at 1, prepareProcess, tbind at 1.
      destruct (resumed_member st3 (S born) (live ++ [m]) _ m 0 Hf1 Hm) as (d2 & Hrun & Hf2). { cbn [List.length]. rewrite Ew. exact Hres1. }
      cbn [m_id m] in Hrun. rewrite Hrun. unfold set_ready. unfold tbind at 1, tdbg, get_proc. cbn [t_dbg set_dbg].
      assert (exists r2, nth_error (d_procs d2) born = Some r2 /\ pr_parent r2 = Some id) as (r2 & R3 & R4).
      { unfold proc_syscall, tdbg in Hrun. change (syscall K p born 0 (t_dbg st3)) with (syscall K p (m_id m) 0 d1) in Hrun. rewrite (resume_member K p _ _ Hl _ (S born) (live ++ [m]) _ m 0 Hf1 Hm) in Hrun by (cbn [List.length]; rewrite Ew; exact Hres1).
        injection Hrun as <-. cbn. rewrite nth_upd_nth, Nat.eqb_refl, R1. eexists. split; [reflexivity|]. exact R2. }
      rewrite R3, R4. match goal with |- context [proc_syscall p K id 0 ?s4] => set (st4 := s4) end.
      destruct (resumed_member st4 (S born) (live ++ [m]) _ q 0 Hf2 Hq') as (d3 & -> & Hf3). { cbn [List.length]. rewrite Ew. exact Hres2. }
      assert (moved st (set_dbg st4 d3) id (state_of st id)) as M by (apply moved_sys; reflexivity).
      eexists. split; [reflexivity|]. split; [|exact M]. refine (conj Hf3 (conj _ _)).
      - split.
        + intros x Hx. apply in_app_iff in Hx as [Hx|[<-|[]]].
          * destruct (proj1 Hr x Hx) as (X1 & X2). split; [|lia]. unfold is_ready. cbn [set_dbg t_ready st4 existsb]. unfold is_ready in X1.
            change (t_ready st3) with (t_ready st). rewrite X1. apply orb_true_r.
          * split; [|cbn; lia]. unfold is_ready. cbn. now rewrite Nat.eqb_refl.
        + intros i Hi. apply (proj2 Hr i). lia.
      - cbn. now rewrite Hlog.
    Qed.
    Lemma end_round m x : deadly m -> awaits K live 1 k (List.length cs) w q m ->
      match ss_syscall (state_of st id) with
      | Some c => if ss_exit (state_of st id) && negb (s_enter o) then exists z c' y, stops n id = z /\ line_of pid id z c c' y /\ x = [y] else x = []
      | None => x = []
      end ->
      exists st', round F code st = (st', Ret (match m with Exited c => c | _ => code end)) /\ seen st' born (without q live) (rev w ++ cs) (end_line ns pid m :: x ++ log) /\
        exists s', moved st st' id s'.
    Proof.
      intros Hm Hw Hx. destruct Hs as (Hf & Hr & Hlog). pose proof (awaits_In _ _ _ _ _ _ _ _ Hw) as Hq.
      destruct (any_end K p _ _ Hl (t_dbg st) born live cs k w q m F Hf HF Hm Hw) as (d & Hwait & Hf1 & (r & R1 & R2)).
      unfold StraceModel.round, tbind at 1, tdbg. rewrite Hwait. unfold tbind at 1, tsee. cbn [fst snd set_dbg t_dbg t_sys t_ready t_log t_seen].
      set (st1 := TState d _ _ _ _). assert (state_of st1 id = state_of st id) as Hs1 by reflexivity.
      assert (pid_of st1 id = pid) as Hp1. { unfold pid_of. cbn [t_dbg st1]. rewrite R1. exact R2. }
      assert (match exit_code m with Some c => c | None => code end = match m with Exited c => c | _ => code end) as Hcode by (destruct m; reflexivity).
      assert (moved st st1 id (state_of st id)) as M1 by (apply moved_sys; reflexivity). destruct (proj1 Hr q Hq) as (_ & Hlt).
      assert (forall st2 s', t_ready st2 = t_ready st -> moved st st2 id s' -> ready st2 born (without q live)) as Hready.
      { intros st2 s' E M. destruct (ready_moved st st2 born live id s' Hr M Hlt E) as (A & B). split; [|exact B]. intros y Hy. apply without_In in Hy as [Hy _]. now apply A. }
      pose proof Hf1 as (_ & _ & _ & _ & F1). cbn [handle_event]. unfold tbind at 1, handle_exit, tbind at 1, tget. cbv zeta. rewrite Hs1.
      destruct (ss_syscall (state_of st id)) as [c|] eqn:Ec; [destruct (ss_exit (state_of st id) && negb (s_enter o)) eqn:Ee|].
      - destruct Hx as (z & c' & y & Hz & (t & Hfmt & (S1 & S2 & S3 & S4) & ->) & ->).
        unfold StraceModel.displaySyscall, tbind, tget, tres, the_stop. change (t_dbg st1) with d. rewrite F1, Ew, Hz, Hfmt. unfold tlog, tret. rewrite Hp1. cbn [fst snd].
        assert (SyscallCall (c_func c') (c_number c) (c_result c) (c_result_text c) (c_instr_pointer c) = c') as ->. { destruct c'. cbn in *. congruence. }
        rewrite (line_shown_null p o), S2, S3, S4. unfold keep_call. cbv zeta.
        match goal with |- context [state_of ?s2 id] => change (state_of s2 id) with (state_of st1 id) end. rewrite Hs1, Ec, Hcode.
        cbn [set_sys t_dbg t_sys t_ready t_log t_seen]. match goal with |- context [(?s9, Ret (match m with Exited _ => _ | _ => _ end))] => set (st9 := s9) end.
        assert (moved st st9 id (SState (Some c') (ss_name (state_of st id)) (ss_exit (state_of st id)))) as M9.
        { eapply moved_trans; [exact M1|]. exact (moved_set st1 _ id). }
        exists st9. split; [reflexivity|]. split; [|eauto]. refine (conj Hf1 (conj (Hready st9 _ eq_refl M9) _)). cbn. now rewrite Hlog.
      - subst x. unfold tbind, tret, tlog. rewrite Hp1, Hcode. eexists. split; [reflexivity|]. split; [|exists (state_of st id); exact M1].
        refine (conj Hf1 (conj (Hready _ (state_of st id) eq_refl M1) _)). cbn. now rewrite Hlog.
      - subst x. unfold tbind, tret, tlog. rewrite Hp1, Hcode. eexists. split; [reflexivity|]. split; [|exists (state_of st id); exact M1].
        refine (conj Hf1 (conj (Hready _ (state_of st id) eq_refl M1) _)). cbn. now rewrite Hlog.
    Qed.
  End Member.
End Rounds.
