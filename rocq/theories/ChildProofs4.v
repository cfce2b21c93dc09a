(** * ChildProofs4: the null device that can not be used, and exceptions that are no errors. *)
From Coq Require Import ZArith List Ascii String Bool Lia.
From Verif Require Import PyBase PyFacts TraceModel ChildModel ChildSpec ChildProofs ChildProofs2 ChildProofs3.
Import ListNotations.
Open Scope Z_scope.

Lemma cloexec_flag fd st d : c_fds st fd = Some d -> exists st', set_cloexec_flag fd st = (st', Ret tt) /\
  c_fds st' fd = Some (Desc (if Z.odd (d_flags d) then d_flags d else d_flags d + 1) (d_file d)) /\ forall x, x <> fd -> c_fds st' x = c_fds st x.
Proof.
  intros E. unfold set_cloexec_flag, cbind, did, desc_of, upd. cbn [c_fds c_calls c_pipe]. rewrite E. eexists. split; [reflexivity|]. cbn [c_fds]. unfold fd_set. split; [rewrite Z.eqb_refl|intros x H; apply Z.eqb_neq in H; now rewrite H].
  do 2 f_equal. destruct (Z.odd (d_flags d)) eqn:Eo.
  - apply Z.bits_inj'. intros n Hn. rewrite Z.lor_spec. destruct (Z.eq_dec n 0) as [->|N]; [rewrite Z.bit0_odd, Eo; reflexivity|].
    replace (Z.testbit 1 n) with false; [now rewrite orb_false_r|]. symmetry. destruct (Z.testbit 1 n) eqn:E1; [|reflexivity]. change 1 with (2 ^ 0) in E1. rewrite Z.pow2_bits_eqb in E1 by lia. apply Z.eqb_eq in E1. lia.
  - assert (Z.land (d_flags d) 1 = 0) as E0; [|rewrite Z.add_nocarry_lxor by exact E0; symmetry; now apply Z.lxor_lor].
    change 1 with (Z.ones 1). rewrite Z.land_ones by lia. change (2 ^ 1) with 2. now rewrite Zmod_odd, Eo.
Qed.
Lemma run_raises c x : sound_creation c -> good_start c ->
  (forall st, exists st', execChild (cr_child c) (cr_arguments c) (cr_no_stdout c) (cr_env c) st = (st', Raise x) /\ c_pipe st' = c_pipe st) ->
  snd (run_child c) = Raise (PyExn (ESystemExit 255) (T "255")) /\ snd (run_parent c) = Raise x /\ hd_error (c_calls (fst (run_parent c))) = Some (CWaitpid (cr_pid c) 0).
Proof.
  intros (Hpid & Hf & Cr & Cw & (k & rest & Hrd) & (kw & restw & Hwt) & (kx & restx & Hwr) & Hpk) H Hx.
  destruct (run_child_prefix c H) as (st & (C & P & F) & E). destruct (Hx st) as (st' & E1 & P1).
  destruct (Hpk x) as (data & Hd & Hne & Hl). rewrite (end_raise _ _ _ _ _ _ _ _ _ _ _ E1 Hd Hwr) in E.
  destruct (parent_run (cr_parent c) (cr_maxfd c) _ _ _ _ _ _ _ _ _ (cr_arguments c) (cr_no_stdout c) (cr_env c) (cr_close_fds c) (cr_pass_fds c) Hpid Hf Cr Cw Hrd Hwt) as (sp & Ep & Fp & Pp & Clp).
  fold (run_parent c) in Ep. assert (c_pipe (fst (run_child c)) = data) as Epipe by (rewrite E; cbn; now rewrite P1, P). rewrite Epipe in Ep, Clp. rewrite E, Ep. split; [reflexivity|]. cbn [fst snd]. rewrite Clp.
  destruct data as [|b data]; [congruence|]. rewrite Hl. split; reflexivity.
Qed.
Lemma run_stops c e m : sound_creation c -> good_start c -> cr_no_stdout c = false -> cr_arguments c <> [] ->
  co_exec (cr_child c) (cr_arguments c) (cr_env c) = Some (PyExn e m) -> e = EKeyboardInterrupt \/ (exists code, e = ESystemExit code) ->
  snd (run_child c) = Raise (PyExn (ESystemExit 255) (T "255")) /\ snd (run_parent c) = Raise (PyExn e m) /\ hd_error (c_calls (fst (run_parent c))) = Some (CWaitpid (cr_pid c) 0).
Proof.
  intros Hs H Hn Ha Hc He. apply run_raises; [exact Hs|exact H|]. intros st. rewrite Hn. unfold execChild. erewrite bind_ret by reflexivity. destruct (cr_arguments c) as [|a l]; [congruence|].
  unfold ctry, cbind, did. rewrite Hc. cbn [craise]. assert (is_exception (px_exn (PyExn e m)) = false) as -> by (destruct He as [->|(code & ->)]; reflexivity).
  eexists. split; reflexivity.
Qed.
Lemma run_null_stops c e m : sound_creation c -> good_start c -> cr_no_stdout c = true -> co_null (cr_child c) = inr (PyExn e m) -> (forall errno, e <> EOSError errno) ->
  snd (run_child c) = Raise (PyExn (ESystemExit 255) (T "255")) /\ snd (run_parent c) = Raise (PyExn e m) /\ hd_error (c_calls (fst (run_parent c))) = Some (CWaitpid (cr_pid c) 0).
Proof.
  intros Hs H Hn Ho He. apply run_raises; [exact Hs|exact H|]. intros st. rewrite Hn. unfold execChild.
  assert (is_oserror e = false) as Ee by (destruct e; try reflexivity; now exfalso; eapply He).
  eexists. split; [eapply bind_raise; unfold redirect_output, ctry; erewrite bind_ret by reflexivity; rewrite Ho; cbn [craise px_exn]; rewrite Ee; reflexivity|reflexivity].
Qed.
(** The standard output and error are closed when the null device does not work *)
Lemma close_two os st f1 f2 : c_fds st 1 = Some f1 -> c_fds st 2 = Some f2 -> co_close os 1 = None -> co_close os 2 = None ->
  exists st', (_ <: close os 2; close os 1) st = (st', Ret tt) /\ went st st' [CClose 2; CClose 1] (fun x => if (x =? 1) || (x =? 2) then None else c_fds st x).
Proof.
  intros E1 E2 C1 C2. destruct (close_went os 2 st) as (s1 & o1 & A1 & (B1 & P1 & F1) & _ & O1). rewrite O1 in A1; [|congruence|exact C2].
  destruct (close_went os 1 s1) as (s2 & o2 & A2 & (B2 & P2 & F2) & _ & O2). rewrite O2 in A2; [|rewrite F1; unfold fd_set; cbn; congruence|exact C1].
  exists s2. split; [erewrite bind_ret by exact A1; exact A2|]. split; [rewrite B2, B1; reflexivity|]. split; [congruence|]. intros x. rewrite F2. unfold fd_set at 1. rewrite F1. unfold fd_set. destruct (x =? 1); [reflexivity|]. now destruct (x =? 2).
Qed.
Lemma run_null_fails c f1 f2 x : good_start c -> executable c -> cr_no_stdout c = true -> cr_fds c 1 = Some f1 -> cr_fds c 2 = Some f2 ->
  co_close (cr_child c) 1 = None -> co_close (cr_child c) 2 = None -> (exists errno m, x = PyExn (EOSError errno) m) ->
  co_null (cr_child c) = inr x \/ (exists null, co_null (cr_child c) = inl null /\ null <> 1 /\ null <> 2 /\ cr_fds c null = None /\ null <> cr_write c /\ co_dup2 (cr_child c) null 1 = Some x) ->
  exists st, run_child c = (st, Execed (cr_arguments c) (cr_env c)) /\ c_fds st 1 = None /\ c_fds st 2 = None /\
  (forall x, x <> 1 -> x <> 2 -> c_fds st x = inherited (child_fds (cr_maxfd c) (cr_fds c) (cr_read c) (cr_write c) (closing c) (cr_pass_fds c) x)).
Proof.
  intros H (Ha & He) Hn E1 E2 C1 C2 (errno & m & ->) Hx. pose proof H as H0. destruct H0 as ((Hrw & Hr & Hw) & _). destruct (run_child_prefix c H) as (st & (C & P & F) & E). rewrite E, Hn.
  set (tab := child_fds (cr_maxfd c) (cr_fds c) (cr_read c) (cr_write c) (closing c) (cr_pass_fds c)) in *.
  assert (forall n f, n < 3 -> cr_fds c n = Some f -> exists f', tab n = Some f') as Hopen.
  { intros n f Hlt En. unfold tab, child_fds. assert (n =? cr_write c = false) as -> by (apply Z.eqb_neq; congruence). assert (n =? cr_read c = false) as -> by (apply Z.eqb_neq; congruence).
    rewrite En. destruct (existsb (Z.eqb n) (cr_pass_fds c)); [eexists; reflexivity|]. assert (3 <=? n = false) as -> by (apply Z.leb_gt; lia). rewrite andb_false_r. eexists. reflexivity. }
  destruct (Hopen 1 _ ltac:(lia) E1) as (g1 & G1). destruct (Hopen 2 _ ltac:(lia) E2) as (g2 & G2).
  assert (exists s1, redirect_output (cr_child c) st = (s1, Ret tt) /\ c_fds s1 1 = None /\ c_fds s1 2 = None /\ forall x, x <> 1 -> x <> 2 -> inherited (c_fds s1 x) = inherited (tab x)) as (s1 & R1 & T1 & T2 & T3).
  { destruct Hx as [Hx|(null & Hx & N1 & N2 & N3 & N4 & Hd)].
    - unfold redirect_output, ctry. erewrite bind_ret by reflexivity. rewrite Hx. cbn [craise px_exn is_oserror]. set (s0 := CState _ _ _).
      destruct (close_two (cr_child c) s0 g1 g2) as (s1 & A & (_ & _ & B)); [cbn; now rewrite F|cbn; now rewrite F|exact C1|exact C2|].
      exists s1. split; [exact A|]. split; [now rewrite B|]. split; [now rewrite B|]. intros y Y1 Y2. rewrite B. apply Z.eqb_neq in Y1, Y2. rewrite Y1, Y2. cbn [orb s0 c_fds]. now rewrite F.
    - unfold redirect_output, ctry. erewrite bind_ret by reflexivity. rewrite Hx. erewrite bind_ret by reflexivity.
      match goal with |- context [cbind (dup2 _ _ _) _ ?s] => set (s0 := s) end.
      assert (dup2 (cr_child c) null 1 s0 = (CState (c_fds s0) (CDup2 null 1 :: c_calls s0) (c_pipe s0), Raise (PyExn (EOSError errno) m))) as Ed by (unfold dup2, cbind, did; rewrite Hd; reflexivity).
      rewrite (bind_raise _ _ _ _ _ Ed). cbn [px_exn is_oserror]. set (s00 := CState _ _ _).
      assert (null =? 1 = false /\ null =? 2 = false) as (M1 & M2) by (split; now apply Z.eqb_neq).
      destruct (close_two (cr_child c) s00 g1 g2) as (s1 & A & (_ & _ & B)); [cbn; unfold fd_set; rewrite Z.eqb_sym, M1; now rewrite F|cbn; unfold fd_set; rewrite Z.eqb_sym, M2; now rewrite F|exact C1|exact C2|].
      exists s1. split; [exact A|]. split; [now rewrite B|]. split; [now rewrite B|]. intros y Y1 Y2. rewrite B. apply Z.eqb_neq in Y1, Y2. rewrite Y1, Y2. cbn [orb s0 s00 c_fds]. unfold fd_set.
      destruct (Z.eqb_spec y null) as [->|Y3]; [|now rewrite F]. cbn [inherited d_flags Z.odd]. unfold tab, child_fds. apply Z.eqb_neq in N4. rewrite N4. destruct (null =? cr_read c); [reflexivity|].
      rewrite N3. destruct (existsb _ _); [reflexivity|]. now destruct (_ && _). }
  assert (execChild (cr_child c) (cr_arguments c) true (cr_env c) st = (CState (after_exec (c_fds s1)) (CExec (cr_arguments c) (cr_env c) :: c_calls s1) (c_pipe s1), Execed (cr_arguments c) (cr_env c))) as E3.
  { unfold execChild. erewrite bind_ret by exact R1. destruct (cr_arguments c) as [|a l]; [congruence|]. unfold ctry, cbind, did. rewrite He. reflexivity. }
  eexists. split; [apply end_exec; exact E3|]. cbn [c_fds]. split; [now rewrite after_inherited, T1|]. split; [now rewrite after_inherited, T2|].
  intros y Y1 Y2. rewrite after_inherited. now apply T3.
Qed.
(** Examples: the same program, with another answer for the null device *)
Definition null_os (os : cos) (null : Z + pyexn) (dup : option pyexn) : cos :=
  COs (co_traceme os) (co_close os) null (fun _ _ => dup) (co_exec os) (co_write os) (co_read os) (co_waitpid os) (co_dumps os) (co_loads os).
Definition ls_null (null : Z + pyexn) (dup : option pyexn) (read : list byte) : creation :=
  let c := ls None None read true true [5] in
  Creation (cr_fds c) (cr_read c) (cr_write c) (cr_pid c) (cr_maxfd c) (null_os (cr_child c) null dup) (cr_parent c) (cr_arguments c) true (cr_env c) true [5].
Definition eacces : pyexn := PyExn (EOSError 13) (T "[Errno 13] Permission denied").
Definition ctrl_c : pyexn := PyExn EKeyboardInterrupt [].

(** ** Other errors *)
Lemma other_wait pid options k e rest st : e <> EINTR -> exists st', waitpid_no_intr pid options (repeat (Some EINTR) k ++ Some e :: rest) st = (st', Raise (oserror e)) /\
  c_calls st' = repeat (CWaitpid pid options) (S k) ++ c_calls st.
Proof.
  intros He. apply Z.eqb_neq in He. revert st. induction k as [|k IH]; intros st; cbn [repeat app waitpid_no_intr].
  - eexists. unfold cbind, did. rewrite He. split; reflexivity.
  - unfold cbind at 1, did. rewrite Z.eqb_refl. destruct (IH (CState (c_fds st) (CWaitpid pid options :: c_calls st) (c_pipe st))) as (st' & E & C). exists st'. split; [exact E|]. rewrite C. cbn [c_calls].
    change (CWaitpid pid options :: c_calls st) with ([CWaitpid pid options] ++ c_calls st). rewrite app_assoc. f_equal. clear. induction k as [|k IH]; [reflexivity|]. cbn [repeat app] in *. now rewrite IH.
Qed.
Lemma other_write fd data k e rest st : e <> EINTR -> exists st', write_no_intr fd data (repeat (Some EINTR) k ++ Some e :: rest) st = (st', Raise (oserror e)) /\
  c_calls st' = repeat (CWrite fd data) (S k) ++ c_calls st /\ c_pipe st' = c_pipe st.
Proof.
  intros He. apply Z.eqb_neq in He. revert st. induction k as [|k IH]; intros st; cbn [repeat app write_no_intr].
  - eexists. unfold cbind, did. rewrite He. split; [reflexivity|]. split; reflexivity.
  - unfold cbind at 1, did. rewrite Z.eqb_refl. destruct (IH (CState (c_fds st) (CWrite fd data :: c_calls st) (c_pipe st))) as (st' & E & C & P). exists st'. split; [exact E|]. rewrite C, P. cbn [c_calls c_pipe]. split; [|reflexivity].
    change (CWrite fd data :: c_calls st) with ([CWrite fd data] ++ c_calls st). rewrite app_assoc. f_equal. clear. induction k as [|k IH]; [reflexivity|]. cbn [repeat app] in *. now rewrite IH.
Qed.
Lemma traceme_fails c e m : fresh_pipe (cr_fds c) (cr_read c) (cr_write c) -> co_close (cr_child c) (cr_read c) = None -> co_traceme (cr_child c) = Some (PyExn e m) ->
  exists st, run_child c = (st, Raise (match e with EPtraceError _ | EProcessError | EDebuggerError => PyExn EChildError m | _ => PyExn e m end)) /\
    c_calls st = [CTraceMe; CClose (cr_read c); CFork; CSetCloexec (cr_write c); CPipe] /\ c_pipe st = [].
Proof.
  intros Hf Hc Ht. unfold run_child. rewrite start. cbn [negb Z.eqb]. set (st0 := forked (cr_fds c) (cr_read c) (cr_write c)).
  destruct (close_went (cr_child c) (cr_read c) st0) as (st1 & o & Ec & (Hp1 & Hc1 & _) & _ & Ho). rewrite Ho in Ec by (try exact Hc; unfold st0; rewrite forked_r by exact Hf; discriminate).
  unfold cbind at 1. rewrite Ec. unfold createChild_child, cbind, traceme, ctry, did. rewrite Ht. cbn [px_exn px_msg].
  exists (CState (c_fds st1) (CTraceMe :: c_calls st1) (c_pipe st1)).
  split; [destruct e; reflexivity|]. cbn [c_calls c_pipe]. rewrite Hc1, Hp1. split; reflexivity.
Qed.
