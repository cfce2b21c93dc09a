(** * ChildProofs2: the two processes of createChild(). *)
From Coq Require Import ZArith List Ascii String Bool Lia.
From Verif Require Import PyBase PyFacts TraceModel ChildModel ChildSpec ChildProofs.
Import ListNotations.
Open Scope Z_scope.

Lemma bind_assoc {A B C} (m : CM A) (f : A -> CM B) (g : B -> CM C) st : cbind (cbind m f) g st = cbind m (fun a => cbind (f a) g) st.
Proof. unfold cbind. destruct (m st) as [st1 [a|x|a e]]; reflexivity. Qed.

Section Two.
  Context (os : cos) (MAXFD : Z).
  (** The end of the child *)
  Definition child_end (arguments : list text) (no_stdout : bool) (env : option (list (text * text))) (w : Z) : CM Z :=
    _ <: (_ <: ctry (execChild os arguments no_stdout env)
              (fun x => match co_dumps os x with inr y => craise y | inl data => write_no_intr w data (co_write os) end);
          @craise unit (PyExn (ESystemExit 255) (T "255")));
    cret 0.
  Lemma closes_code close_fds pass : (if negb (match pass with [] => true | _ => false end) && negb close_fds then true else close_fds) = closes close_fds pass :> bool.
  Proof using. unfold closes. destruct pass as [|p pass], close_fds; reflexivity. Qed.

  (** The beginning, in the two processes *)
  Definition forked (t : fdtable) (r w : Z) : cstate :=
    CState (fd_set (fd_set (fd_set t r (Some (Desc 1 (FPipe false)))) w (Some (Desc 1 (FPipe true)))) w (Some (Desc 1 (FPipe true)))) [CFork; CSetCloexec w; CPipe] [].
  Lemma start t r w fork arguments no_stdout env close_fds pass :
    createChild os MAXFD (inl (r, w)) (inl fork) arguments no_stdout env close_fds pass (before t) =
    (if negb (fork =? 0) then (_ <: close os w; _ <: createParent os fork r; cret fork)
     else (_ <: close os r; _ <: createChild_child os MAXFD arguments no_stdout env w (closes close_fds pass) pass; cret 0)) (forked t r w).
  Proof using.
    unfold createChild. rewrite closes_code. unfold set_cloexec_flag, cbind at 1 2 3 4 5 6, did, upd, desc_of, before. cbn [c_fds c_calls c_pipe].
    assert (fd_set (fd_set t r (Some (Desc 1 (FPipe false)))) w (Some (Desc 1 (FPipe true))) w = Some (Desc 1 (FPipe true))) as E by (unfold fd_set; now rewrite Z.eqb_refl).
    rewrite E. reflexivity.
  Qed.
  Lemma forked_r t r w : fresh_pipe t r w -> c_fds (forked t r w) r = Some (Desc 1 (FPipe false)).
  Proof using. intros (H & _). cbn. unfold fd_set. apply Z.eqb_neq in H. now rewrite H, Z.eqb_refl. Qed.
  Lemma forked_w t r w : c_fds (forked t r w) w = Some (Desc 1 (FPipe true)).
  Proof using. cbn. unfold fd_set. now rewrite Z.eqb_refl. Qed.

  Lemma child_prefix t r w arguments no_stdout env close_fds pass : ready os t r w pass -> fresh_pipe t r w -> ~ In r pass -> ~ In w pass ->
    exists st, went (before t) st (child_calls MAXFD r w (closes close_fds pass) pass) (child_fds MAXFD t r w (closes close_fds pass) pass) /\
      createChild os MAXFD (inl (r, w)) (inl 0) arguments no_stdout env close_fds pass (before t) = child_end arguments no_stdout env w st.
  Proof using.
    intros (Ht & Hc & Hp) Hf Hr Hw. rewrite start. cbn [negb Z.eqb]. set (st0 := forked t r w).
    destruct (close_went os r st0) as (st1 & o & Ec & Hw1 & _ & Ho). rewrite Ho in Ec by (try exact Hc; unfold st0; rewrite forked_r by exact Hf; discriminate).
    erewrite bind_ret by exact Ec. unfold createChild_child.
    set (st2 := CState (c_fds st1) (CTraceMe :: c_calls st1) (c_pipe st1)).
    assert (traceme os st1 = (st2, Ret tt)) as E2 by (unfold traceme, ctry, cbind, did; rewrite Ht; reflexivity).
    assert (went st1 st2 [CTraceMe] (c_fds st1)) as Hw2 by (split; [reflexivity|]; split; reflexivity).
    destruct Hf as (Hne & Htr & Htw).
    assert (forall x, c_fds st2 x = if x =? r then None else if x =? w then Some (Desc 1 (FPipe true)) else t x) as F2.
    { intros x. cbn [c_fds st2]. destruct Hw1 as (_ & _ & ->). cbn. unfold fd_set. destruct (x =? r) eqn:Er; [reflexivity|]. now destruct (x =? w). }
    destruct (inherit_loop pass st2) as (st3 & E3 & Hw3).
    { rewrite Forall_forall in Hp |- *. intros x Hx. rewrite F2. destruct (x =? r) eqn:Er; [apply Z.eqb_eq in Er; subst; contradiction|]. destruct (x =? w); [discriminate|auto]. }
    assert (forall x, c_fds st3 x = if x =? w then Some (Desc 1 (FPipe true)) else if x =? r then None else if existsb (Z.eqb x) pass then made_inheritable (t x) else t x) as F3.
    { intros x. destruct Hw3 as (_ & _ & ->). rewrite F2. destruct (Z.eqb_spec x w) as [->|Hxw].
      - assert (existsb (Z.eqb w) pass = false) as -> by (destruct (existsb (Z.eqb w) pass) eqn:E; [apply existsb_in in E; contradiction|reflexivity]). assert (w =? r = false) as -> by (apply Z.eqb_neq; congruence). reflexivity.
      - destruct (Z.eqb_spec x r) as [->|Hxr]; [|reflexivity]. now destruct (existsb (Z.eqb r) pass). }
    assert (exists st4, (if closes close_fds pass then close_others os MAXFD w pass else cret tt) st3 = (st4, Ret tt) /\
      went st3 st4 (if closes close_fds pass then map CClose (to_close MAXFD w pass) else []) (child_fds MAXFD t r w (closes close_fds pass) pass)) as (st4 & E4 & Hw4).
    { unfold child_fds. destruct (closes close_fds pass).
      - destruct (close_others_went os MAXFD w pass st3) as (st4 & E4 & Hw4). exists st4. split; [exact E4|]. eapply went_ext; [|exact Hw4]. intros x. unfold closed. rewrite F3. cbn [andb].
        destruct (existsb (Z.eqb x) (to_close MAXFD w pass)) eqn:Ex.
        + apply existsb_in, to_close_in in Ex as (Hx1 & Hx2 & Hx3). apply Z.eqb_neq in Hx2. rewrite Hx2. destruct (x =? r); [reflexivity|].
          assert (existsb (Z.eqb x) pass = false) as -> by (destruct (existsb (Z.eqb x) pass) eqn:E; [apply existsb_in in E; contradiction|reflexivity]).
          assert (3 <=? x = true) as -> by (apply Z.leb_le; lia). assert (x <? MAXFD = true) as -> by (apply Z.ltb_lt; lia). reflexivity.
        + destruct (Z.eqb_spec x w) as [->|Hxw]; [reflexivity|]. destruct (x =? r); [reflexivity|]. destruct (existsb (Z.eqb x) pass) eqn:Ep; [reflexivity|].
          destruct (3 <=? x) eqn:E3'; [|reflexivity]. destruct (x <? MAXFD) eqn:E4'; [|reflexivity]. exfalso. apply Z.leb_le in E3'. apply Z.ltb_lt in E4'.
          assert (existsb (Z.eqb x) (to_close MAXFD w pass) = true) by (apply existsb_in, to_close_in; split; [lia|]; split; [exact Hxw|]; intros F; apply existsb_in in F; congruence). congruence.
      - exists st3. split; [reflexivity|]. eapply went_ext; [|apply went_refl]. intros x. rewrite F3. reflexivity. }
    exists st4. split.
    - assert (went (before t) st0 [CPipe; CSetCloexec w; CFork] (c_fds st0)) as Hw0 by (split; [reflexivity|]; split; reflexivity).
      unfold child_calls. change ([CPipe; CSetCloexec w; CFork; CClose r; CTraceMe] ++ ?l) with ([CPipe; CSetCloexec w; CFork] ++ [CClose r] ++ [CTraceMe] ++ l).
      eapply went_trans; [exact Hw0|]. eapply went_trans; [exact Hw1|]. eapply went_trans; [exact Hw2|]. eapply went_trans; [exact Hw3|]. exact Hw4.
    - unfold child_end. rewrite !bind_assoc. erewrite bind_ret by exact E2. rewrite bind_assoc. erewrite bind_ret by exact E3. rewrite bind_assoc. erewrite bind_ret by exact E4. rewrite bind_assoc. reflexivity.
  Qed.

  (** ** The parent *)
  Lemma parent_run t r w pid data k rest kw restw arguments no_stdout env close_fds pass : pid <> 0 -> fresh_pipe t r w -> co_close os r = None -> co_close os w = None ->
    co_read os = interrupted_read k data rest -> co_waitpid os = interrupted kw restw ->
    exists st, createChild os MAXFD (inl (r, w)) (inl pid) arguments no_stdout env close_fds pass (before t) =
        (st, match data with [] => Ret pid | _ => Raise (co_loads os data) end) /\
      (forall x, c_fds st x = t x) /\ c_pipe st = [] /\
      c_calls st = match data with [] => [] | _ => repeat (CWaitpid pid 0) (S kw) end ++ CClose r :: repeat (CRead r 1048576) (S k) ++ [CClose w; CFork; CSetCloexec w; CPipe].
  Proof using.
    intros Hpid Hf Hcr Hcw Hread Hwait. rewrite start. apply Z.eqb_neq in Hpid. rewrite Hpid. cbn [negb]. set (st0 := forked t r w).
    destruct (close_went os w st0) as (st1 & o & Ec & (C1 & P1 & F1) & _ & Ho). rewrite Ho in Ec by (try exact Hcw; unfold st0; rewrite forked_w; discriminate).
    erewrite bind_ret by exact Ec. unfold createParent. rewrite Hread, Hwait. rewrite bind_assoc. erewrite bind_ret by apply read_retry.
    set (st2 := CState (c_fds st1) (repeat (CRead r 1048576) (S k) ++ c_calls st1) (c_pipe st1)).
    destruct Hf as (Hne & Htr & Htw).
    destruct (close_went os r st2) as (st3 & o2 & Ec2 & (C3 & P3 & F3) & _ & Ho2). rewrite Ho2 in Ec2.
    2: { cbn [c_fds st2]. rewrite F1. cbn. unfold fd_set. apply Z.eqb_neq in Hne. rewrite Hne, Z.eqb_refl. discriminate. }
    2: exact Hcr.
    rewrite bind_assoc. erewrite bind_ret by exact Ec2.
    assert (forall x, c_fds st3 x = t x) as F.
    { intros x. rewrite F3. cbn [c_fds st2]. unfold fd_set at 1. destruct (Z.eqb_spec x r) as [->|Hxr]; [now rewrite Htr|]. rewrite F1. cbn. unfold fd_set. destruct (Z.eqb_spec x w) as [->|Hxw]; [now rewrite Htw|]. apply Z.eqb_neq in Hxr. now rewrite Hxr. }
    cbn [st2 c_calls c_pipe] in *.
    destruct data as [|b data].
    - exists st3. split; [reflexivity|]. split; [exact F|]. split; [now rewrite P3, P1|]. rewrite C3, C1. reflexivity.
    - rewrite bind_assoc. erewrite bind_ret by apply wait_retry.
      eexists. split; [reflexivity|]. split; [exact F|]. split; [cbn [c_pipe]; now rewrite P3, P1|]. cbn [c_calls]. rewrite C3, C1. reflexivity.
  Qed.

  (** ** The execution *)
  Lemma exec_outcomes arguments no_stdout env st : exists st' o, execChild os arguments no_stdout env st = (st', o) /\ c_pipe st' = c_pipe st /\
    (o = Execed arguments env \/ exists x, o = Raise x).
  Proof using.
    assert (forall fd s, exists s', c_pipe s' = c_pipe s /\ (close os fd s = (s', Ret tt) \/ exists x, close os fd s = (s', Raise x))) as Cl.
    { intros fd s. destruct (close_went os fd s) as (s' & o & E & (_ & P & _) & [->|(e & ->)] & _); exists s'; split; eauto. }
    assert (forall s, exists s', c_pipe s' = c_pipe s /\ (redirect_output os s = (s', Ret tt) \/ exists x, redirect_output os s = (s', Raise x))) as Rd.
    { intros s. unfold redirect_output. 
      assert (forall x s0, exists s', c_pipe s' = c_pipe s0 /\ ((if is_oserror (px_exn x) then (_ <: close os 2; close os 1) else craise x) s0 = (s', Ret tt) \/ exists y, (if is_oserror (px_exn x) then (_ <: close os 2; close os 1) else craise x) s0 = (s', Raise y))) as Hh.
      { intros x s0. destruct (is_oserror (px_exn x)); [|exists s0; split; [reflexivity|right; eexists; reflexivity]]. destruct (Cl 2 s0) as (s1 & P1 & [E1|(y & E1)]).
        - destruct (Cl 1 s1) as (s2 & P2 & [E2|(y & E2)]); exists s2; (split; [congruence|]); erewrite bind_ret by exact E1; eauto.
        - exists s1. split; [exact P1|]. right. exists y. eapply bind_raise. exact E1. }
      assert (forall (m : CM unit) s0, (exists s', c_pipe s' = c_pipe s0 /\ (m s0 = (s', Ret tt) \/ exists x, m s0 = (s', Raise x))) ->
        exists s', c_pipe s' = c_pipe s0 /\ (ctry m (fun x => if is_oserror (px_exn x) then (_ <: close os 2; close os 1) else craise x) s0 = (s', Ret tt) \/ exists x, ctry m (fun x => if is_oserror (px_exn x) then (_ <: close os 2; close os 1) else craise x) s0 = (s', Raise x))) as Tr.
      { intros m s0 (s' & P & [E|(x & E)]); unfold ctry; rewrite E; [exists s'; auto|]. destruct (Hh x s') as (s2 & P2 & E2). exists s2. split; [congruence|exact E2]. }
      apply Tr. erewrite bind_ret by reflexivity. destruct (co_null os) as [null|x]; [|eexists; split; [|right; eexists; reflexivity]; reflexivity].
      erewrite bind_ret by reflexivity. cbn [c_fds c_calls c_pipe].
      assert (forall a b s0, exists s', c_pipe s' = c_pipe s0 /\ (dup2 os a b s0 = (s', Ret tt) \/ exists x, dup2 os a b s0 = (s', Raise x))) as Du.
      { intros a b s0. unfold dup2, cbind, did, desc_of, upd, craise, cret. destruct (co_dup2 os a b) as [x|]; [eexists; split; [|right; eexists; reflexivity]; reflexivity|]. cbn [c_fds c_calls c_pipe].
        destruct (c_fds s0 a) as [d|]; [|eexists; split; [|right; eexists; reflexivity]; reflexivity]. destruct (a =? b); eexists; (split; [|left; reflexivity]); reflexivity. }
      match goal with |- exists s', c_pipe s' = c_pipe s /\ (cbind _ _ ?s0 = _ \/ _) => destruct (Du null 1 s0) as (s1 & P1 & [E1|(x & E1)]) end; cbn [c_pipe] in P1.
      2: { exists s1. split; [exact P1|]. right. exists x. eapply bind_raise. exact E1. }
      erewrite bind_ret by exact E1. destruct (Du 1 2 s1) as (s2 & P2 & [E2|(x & E2)]).
      2: { exists s2. split; [congruence|]. right. exists x. eapply bind_raise. exact E2. }
      erewrite bind_ret by exact E2. destruct (Cl null s2) as (s3 & P3 & E3). exists s3. split; [congruence|exact E3]. }
    assert (exists s', c_pipe s' = c_pipe st /\ ((if no_stdout then redirect_output os else cret tt) st = (s', Ret tt) \/ exists x, (if no_stdout then redirect_output os else cret tt) st = (s', Raise x))) as (s1 & P1 & [E1|(x & E1)]).
    { destruct no_stdout; [apply Rd|]. exists st. split; [reflexivity|]. now left. }
    - unfold execChild. erewrite bind_ret by exact E1. destruct arguments as [|a arguments].
      + eexists. eexists. split; [reflexivity|]. split; [exact P1|]. right. eexists. reflexivity.
      + unfold ctry, cbind, did. destruct (co_exec os (a :: arguments) env) as [x|].
        * cbn. destruct (is_exception (px_exn x)); eexists; eexists; (split; [reflexivity|]); (split; [exact P1|]); right; eexists; reflexivity.
        * eexists. eexists. split; [reflexivity|]. split; [exact P1|]. left. reflexivity.
    - exists s1, (Raise x). split; [unfold execChild; eapply bind_raise; exact E1|]. split; [exact P1|]. right. exists x. reflexivity.
  Qed.
  Lemma end_exec arguments no_stdout env w st st' : execChild os arguments no_stdout env st = (st', Execed arguments env) -> child_end arguments no_stdout env w st = (st', Execed arguments env).
  Proof using. intros E. unfold child_end. eapply bind_exec. eapply bind_exec. unfold ctry. now rewrite E. Qed.
  Lemma end_raise arguments no_stdout env w st st' x data k rest : execChild os arguments no_stdout env st = (st', Raise x) -> co_dumps os x = inl data -> co_write os = interrupted k rest ->
    child_end arguments no_stdout env w st = (CState (c_fds st') (repeat (CWrite w data) (S k) ++ c_calls st') (c_pipe st' ++ data), Raise (PyExn (ESystemExit 255) (T "255"))).
  Proof using.
    intros E Ed Ew. unfold child_end. eapply bind_raise. 
    assert (ctry (execChild os arguments no_stdout env) (fun x0 => match co_dumps os x0 with inr y => craise y | inl d => write_no_intr w d (co_write os) end) st =
      (CState (c_fds st') (repeat (CWrite w data) (S k) ++ c_calls st') (c_pipe st' ++ data), Ret tt)) as E1.
    { unfold ctry. rewrite E, Ed, Ew. apply write_retry. }
    erewrite bind_ret by exact E1. reflexivity.
  Qed.
  (** The child never comes back into the caller's code with a result *)
  Lemma never_ret pipe arguments no_stdout env close_fds pass t z : snd (createChild os MAXFD pipe (inl 0) arguments no_stdout env close_fds pass (before t)) <> Ret z.
  Proof using.
    destruct pipe as [[r w]|x]; [|discriminate]. rewrite start. cbn [negb Z.eqb].
    assert (forall A (m : CM A) (x : pyexn) st (b : A), snd (cbind m (fun _ => @craise A x) st) <> Ret b) as H1.
    { intros A m x st b. unfold cbind. destruct (m st) as [s [a|y|a e]]; discriminate. }
    assert (forall A B (m : CM A) (f : A -> CM B) st b, (forall a s, snd (f a s) <> Ret b) -> snd (cbind m f st) <> Ret b) as H2.
    { intros A B m f st b H. unfold cbind. destruct (m st) as [s [a|y|a e]]; [apply H|discriminate|discriminate]. }
    apply H2. intros a s. assert (forall s0, snd (createChild_child os MAXFD arguments no_stdout env w (closes close_fds pass) pass s0) <> Ret tt) as H3.
    { intros s0. unfold createChild_child. apply H2. intros. apply H2. intros. apply H2. intros. apply H1. }
    specialize (H3 s). unfold cbind. destruct (createChild_child os MAXFD arguments no_stdout env w (closes close_fds pass) pass s) as [s' [[]|y|b e]]; [now elim H3|discriminate|discriminate].
  Qed.
  Lemma exec_plain arguments env st : co_exec os arguments env = None -> arguments <> [] ->
    execChild os arguments false env st = (CState (after_exec (c_fds st)) (CExec arguments env :: c_calls st) (c_pipe st), Execed arguments env).
  Proof using. intros E H. unfold execChild. erewrite bind_ret by reflexivity. destruct arguments; [congruence|]. unfold ctry, cbind, did. rewrite E. reflexivity. Qed.
  Lemma exec_fails arguments env st x : co_exec os arguments env = Some x -> is_exception (px_exn x) = true -> arguments <> [] ->
    execChild os arguments false env st = (CState (c_fds st) (CExec arguments env :: c_calls st) (c_pipe st), Raise (PyExn EChildError (px_msg x))).
  Proof using. intros E Hx H. unfold execChild. erewrite bind_ret by reflexivity. destruct arguments; [congruence|]. unfold ctry, cbind, did. rewrite E. cbn. rewrite Hx. reflexivity. Qed.
  Lemma exec_nothing env st : execChild os [] false env st = (st, Raise (PyExn EChildError (T "list index out of range"))).
  Proof using. reflexivity. Qed.
  (** *** The null device *)
  Lemma redirect_ok null st : co_null os = inl null -> null <> 1 -> null <> 2 -> co_dup2 os null 1 = None -> co_dup2 os 1 2 = None -> co_close os null = None ->
    exists st', redirect_output os st = (st', Ret tt) /\ went st st' [COpenNull; CDup2 null 1; CDup2 1 2; CClose null]
      (fun x => if x =? null then None else if (x =? 1) || (x =? 2) then Some (Desc 0 FNull) else c_fds st x).
  Proof using.
    intros En H1 H2 D1 D2 Cl. unfold redirect_output, ctry. erewrite bind_ret by reflexivity. rewrite En. erewrite bind_ret by reflexivity.
    set (s0 := CState _ _ _). set (s1 := CState (fd_set (c_fds s0) 1 (Some (Desc 0 FNull))) (CDup2 null 1 :: c_calls s0) (c_pipe s0)).
    assert (dup2 os null 1 s0 = (s1, Ret tt)) as E1.
    { unfold dup2, cbind, did, desc_of, upd. rewrite D1. cbn [c_fds c_calls c_pipe s0]. unfold fd_set at 1. rewrite Z.eqb_refl. apply Z.eqb_neq in H1. rewrite H1. reflexivity. }
    erewrite bind_ret by exact E1. set (s2 := CState (fd_set (c_fds s1) 2 (Some (Desc 0 FNull))) (CDup2 1 2 :: c_calls s1) (c_pipe s1)).
    assert (dup2 os 1 2 s1 = (s2, Ret tt)) as E2.
    { unfold dup2, cbind, did, desc_of, upd. rewrite D2. cbn [c_fds c_calls c_pipe s1]. unfold fd_set at 1. rewrite Z.eqb_refl. reflexivity. }
    erewrite bind_ret by exact E2. destruct (close_went os null s2) as (s3 & o & E3 & (C & P & F) & _ & Ho).
    rewrite Ho in E3. 3: exact Cl.
    2: { cbn. unfold fd_set. apply Z.eqb_neq in H1, H2. rewrite H1, H2, Z.eqb_refl. discriminate. }
    rewrite E3. exists s3. split; [reflexivity|]. split; [rewrite C; reflexivity|]. split; [rewrite P; reflexivity|]. intros x. rewrite F. cbn. unfold fd_set. destruct (x =? null); [reflexivity|]. destruct (x =? 2); [now rewrite orb_true_r|]. rewrite orb_false_r. now destruct (x =? 1).
  Qed.
End Two.
