(** * ChildProofs3: the properties of createChild(). *)
From Coq Require Import ZArith List Ascii String Bool Lia Sorted.
From Verif Require Import PyBase PyFacts TraceModel ChildModel ChildSpec ChildProofs ChildProofs2.
Import ListNotations.
Open Scope Z_scope.

Lemma closed_exactly os MAXFD w pass st : exists st', close_others os MAXFD w pass st = (st', Ret tt) /\
  (forall fd, must_close MAXFD w pass fd -> c_fds st' fd = None) /\ (forall fd, ~ must_close MAXFD w pass fd -> c_fds st' fd = c_fds st fd) /\
  c_calls st' = rev (map CClose (to_close MAXFD w pass)) ++ c_calls st.
Proof.
  destruct (close_others_went os MAXFD w pass st) as (st' & E & C & _ & F). exists st'. split; [exact E|]. split; [|split; [|exact C]].
  - intros fd H. rewrite F. unfold closed. apply to_close_in, existsb_in in H. now rewrite H.
  - intros fd H. rewrite F. unfold closed. destruct (existsb (Z.eqb fd) (to_close MAXFD w pass)) eqn:E1; [|reflexivity]. apply existsb_in, to_close_in in E1. contradiction.
Qed.
Lemma to_close_sorted MAXFD w pass : StronglySorted Z.lt (to_close MAXFD w pass).
Proof.
  unfold to_close. assert (forall f l, StronglySorted Z.lt l -> StronglySorted Z.lt (filter f l)) as H.
  { intros f l H. induction H as [|x l H IH F]; cbn; [constructor|]. destruct (f x); [|exact IH]. constructor; [exact IH|]. rewrite Forall_forall in F |- *. intros y Hy. apply filter_In in Hy. now apply F. }
  apply H. assert (forall n a, StronglySorted Z.lt (map (fun n => 3 + Z.of_nat n) (seq a n))) as H2; [|apply H2].
  induction n as [|n IH]; intros a; cbn [seq map]; constructor; [apply IH|]. apply Forall_forall. intros y Hy. apply in_map_iff in Hy as (k & <- & Hk). apply in_seq in Hk. lia.
Qed.
Lemma run_child_prefix c : good_start c -> exists st, went (before (cr_fds c)) st (child_calls (cr_maxfd c) (cr_read c) (cr_write c) (closing c) (cr_pass_fds c)) (child_fds (cr_maxfd c) (cr_fds c) (cr_read c) (cr_write c) (closing c) (cr_pass_fds c)) /\
  run_child c = child_end (cr_child c) (cr_arguments c) (cr_no_stdout c) (cr_env c) (cr_write c) st.
Proof. intros (Hf & Hr & Hw & Hs). now apply child_prefix. Qed.
Lemma after_inherited t x : after_exec t x = inherited (t x).
Proof. unfold after_exec, inherited. destruct (t x) as [d|]; [|reflexivity]. now rewrite Z.bit0_odd. Qed.
Lemma run_exec c : good_start c -> executable c -> cr_no_stdout c = false -> exists st, run_child c = (st, Execed (cr_arguments c) (cr_env c)) /\
  (forall x, c_fds st x = inherited (child_fds (cr_maxfd c) (cr_fds c) (cr_read c) (cr_write c) (closing c) (cr_pass_fds c) x)) /\
  rev (c_calls st) = child_calls (cr_maxfd c) (cr_read c) (cr_write c) (closing c) (cr_pass_fds c) ++ [CExec (cr_arguments c) (cr_env c)] /\ c_pipe st = [].
Proof.
  intros H (Ha & He) Hn. destruct (run_child_prefix c H) as (st & (C & P & F) & E). rewrite Hn in E. rewrite E. eexists. split; [apply end_exec; now apply exec_plain|].
  split; [|split; [|exact P]].
  - intros x. cbn [c_fds]. now rewrite after_inherited, F.
  - cbn [c_calls]. rewrite C. cbn [c_calls before]. rewrite app_nil_r. cbn [rev]. now rewrite rev_involutive.
Qed.
Lemma exec_descriptors c : good_start c -> executable c -> cr_no_stdout c = false -> closing c = true -> exists st, run_child c = (st, Execed (cr_arguments c) (cr_env c)) /\
  (forall fd, In fd (cr_pass_fds c) -> exists d, cr_fds c fd = Some d /\ c_fds st fd = Some (Desc (2 * (d_flags d / 2)) (d_file d))) /\
  (forall fd, 3 <= fd < cr_maxfd c -> ~ In fd (cr_pass_fds c) -> c_fds st fd = None) /\
  (forall fd, fd < 3 \/ cr_maxfd c <= fd -> ~ In fd (cr_pass_fds c) -> c_fds st fd = inherited (cr_fds c fd)) /\
  c_fds st (cr_read c) = None /\ c_fds st (cr_write c) = None.
Proof.
  intros H He Hn Hc. destruct (run_exec c H He Hn) as (st & E & F & _). exists st. split; [exact E|]. rewrite Hc in F. destruct H as ((Hne & Hr & Hw) & Hpr & Hpw & (_ & _ & Hp)).
  assert (forall fd, In fd (cr_pass_fds c) -> fd <> cr_write c /\ fd <> cr_read c) as N by (intros fd Hfd; split; intros ->; contradiction).
  assert (forall fd, ~ In fd (cr_pass_fds c) -> existsb (Z.eqb fd) (cr_pass_fds c) = false) as N2 by (intros fd Hfd; destruct (existsb (Z.eqb fd) (cr_pass_fds c)) eqn:E2; [apply existsb_in in E2; contradiction|reflexivity]).
  assert (c_fds st (cr_write c) = None) as W by (rewrite F; unfold child_fds; rewrite Z.eqb_refl; reflexivity).
  assert (c_fds st (cr_read c) = None) as R by (rewrite F; unfold child_fds; apply Z.eqb_neq in Hne; rewrite Hne, Z.eqb_refl; reflexivity).
  split; [|split; [|split; [|split; [exact R|exact W]]]].
  - intros fd Hfd. destruct (N fd Hfd) as (N3 & N4). rewrite Forall_forall in Hp. specialize (Hp fd Hfd). destruct (cr_fds c fd) as [d|] eqn:Ed; [|congruence]. exists d. split; [reflexivity|].
    rewrite F. unfold child_fds. apply Z.eqb_neq in N3, N4. apply existsb_in in Hfd. rewrite N3, N4, Hfd, Ed. unfold made_inheritable, inherited. cbn [d_flags d_file]. rewrite Z.odd_mul. reflexivity.
  - intros fd Hfd Hn2. rewrite F. unfold child_fds. destruct (fd =? cr_write c); [reflexivity|]. destruct (fd =? cr_read c); [reflexivity|]. rewrite N2 by exact Hn2.
    assert (3 <=? fd = true) as -> by (apply Z.leb_le; lia). assert (fd <? cr_maxfd c = true) as -> by (apply Z.ltb_lt; lia). reflexivity.
  - intros fd Hfd Hn2. destruct (Z.eqb_spec fd (cr_write c)) as [->|N3]; [now rewrite W, Hw|]. destruct (Z.eqb_spec fd (cr_read c)) as [->|N4]; [now rewrite R, Hr|].
    rewrite F. unfold child_fds. apply Z.eqb_neq in N3, N4. rewrite N3, N4, N2 by exact Hn2. assert ((3 <=? fd) && (fd <? cr_maxfd c) = false) as E2; [|cbn [andb]; rewrite E2; reflexivity].
    destruct Hfd; [assert (3 <=? fd = false) as -> by (apply Z.leb_gt; lia); reflexivity|assert (fd <? cr_maxfd c = false) as -> by (apply Z.ltb_ge; lia); apply andb_false_r].
Qed.
Lemma pass_closes os MAXFD pipe fork arguments no_stdout env pass st : pass <> [] ->
  createChild os MAXFD pipe fork arguments no_stdout env false pass st = createChild os MAXFD pipe fork arguments no_stdout env true pass st.
Proof. intros H. destruct pass; [congruence|reflexivity]. Qed.

(** ** The null device *)
Lemma run_null c null : good_start c -> executable c -> cr_no_stdout c = true -> null_works c null -> null <> 1 -> null <> 2 ->
  exists st, run_child c = (st, Execed (cr_arguments c) (cr_env c)) /\ c_fds st 1 = Some (Desc 0 FNull) /\ c_fds st 2 = Some (Desc 0 FNull) /\ c_fds st null = None /\
  (forall x, x <> 1 -> x <> 2 -> x <> null -> c_fds st x = inherited (child_fds (cr_maxfd c) (cr_fds c) (cr_read c) (cr_write c) (closing c) (cr_pass_fds c) x)).
Proof.
  intros H (Ha & He) Hn (Hu & D1 & D2 & Cl) N1 N2. destruct (run_child_prefix c H) as (st & (C & P & F) & E). rewrite E, Hn.
  destruct (redirect_ok (cr_child c) null st Hu N1 N2 D1 D2 Cl) as (s1 & E1 & (C1 & P1 & F1)).
  assert (execChild (cr_child c) (cr_arguments c) true (cr_env c) st = (CState (after_exec (c_fds s1)) (CExec (cr_arguments c) (cr_env c) :: c_calls s1) (c_pipe s1), Execed (cr_arguments c) (cr_env c))) as E2.
  { unfold execChild. erewrite bind_ret by exact E1. destruct (cr_arguments c) as [|a l]; [congruence|]. unfold ctry, cbind, did. rewrite He. reflexivity. }
  eexists. split; [apply end_exec; exact E2|]. cbn [c_fds].
  split; [rewrite after_inherited, F1; assert (1 =? null = false) as -> by (apply Z.eqb_neq; congruence); reflexivity|].
  split; [rewrite after_inherited, F1; assert (2 =? null = false) as -> by (apply Z.eqb_neq; congruence); reflexivity|].
  split; [rewrite after_inherited, F1, Z.eqb_refl; reflexivity|]. intros x X1 X2 X3. rewrite after_inherited, F1, <- F. apply Z.eqb_neq in X1, X2, X3. now rewrite X1, X2, X3.
Qed.

(** ** The calls *)
Definition grows {A} (ok : ccall -> Prop) (m : CM A) : Prop := forall st, exists l, c_calls (fst (m st)) = l ++ c_calls st /\ Forall ok l.
Lemma grows_ret {A} ok (a : A) : grows ok (cret a).
Proof. intros st. exists []. split; [reflexivity|constructor]. Qed.
Lemma grows_raise {A} ok x : grows ok (@craise A x).
Proof. intros st. exists []. split; [reflexivity|constructor]. Qed.
Lemma grows_bind {A B} ok (m : CM A) (f : A -> CM B) : grows ok m -> (forall a, grows ok (f a)) -> grows ok (cbind m f).
Proof.
  intros H1 H2 st. unfold cbind. destruct (H1 st) as (l & E & Hl). destruct (m st) as [s [a|x|a e]]; cbn [fst] in *; [|exists l; now split|exists l; now split].
  destruct (H2 a s) as (l2 & E2 & Hl2). exists (l2 ++ l). split; [rewrite E2, E; apply app_assoc|]. apply Forall_app. now split.
Qed.
Lemma grows_try {A} ok (m : CM A) h : grows ok m -> (forall x, grows ok (h x)) -> grows ok (ctry m h).
Proof.
  intros H1 H2 st. unfold ctry. destruct (H1 st) as (l & E & Hl). destruct (m st) as [s [a|x|a e]]; cbn [fst] in *; [exists l; now split| |exists l; now split].
  destruct (H2 x s) as (l2 & E2 & Hl2). exists (l2 ++ l). split; [rewrite E2, E; apply app_assoc|]. apply Forall_app. now split.
Qed.
Lemma grows_did (ok : ccall -> Prop) c : ok c -> grows ok (did c).
Proof. intros H st. exists [c]. split; [reflexivity|]. constructor; [exact H|constructor]. Qed.
Lemma grows_upd ok f : grows ok (upd f).
Proof. intros st. exists []. split; [reflexivity|constructor]. Qed.
Lemma grows_desc ok fd : grows ok (desc_of fd).
Proof. intros st. exists []. split; [reflexivity|constructor]. Qed.
Lemma grows_close os (ok : ccall -> Prop) fd : ok (CClose fd) -> grows ok (close os fd).
Proof. intros H. apply grows_bind; [now apply grows_did|]. intros _. apply grows_bind; [apply grows_desc|]. intros [d|]; [|apply grows_raise]. apply grows_bind; [apply grows_upd|]. intros _. destruct (co_close os fd); [apply grows_raise|apply grows_ret]. Qed.
Lemma grows_dup2 os (ok : ccall -> Prop) a b : ok (CDup2 a b) -> grows ok (dup2 os a b).
Proof. intros H. apply grows_bind; [now apply grows_did|]. intros _. destruct (co_dup2 os a b); [apply grows_raise|]. apply grows_bind; [apply grows_desc|]. intros [d|]; [|apply grows_raise]. destruct (a =? b); [apply grows_ret|apply grows_upd]. Qed.
Lemma grows_write (ok : ccall -> Prop) fd data : ok (CWrite fd data) -> forall l, grows ok (write_no_intr fd data l).
Proof. intros H. induction l as [|[e|] l IH]; cbn [write_no_intr]; [apply grows_bind; [now apply grows_did|intros; apply grows_raise]| |]. - apply grows_bind; [now apply grows_did|]. intros _. destruct (e =? EINTR); [exact IH|apply grows_raise]. - intros st. exists [CWrite fd data]. split; [reflexivity|]. constructor; [exact H|constructor]. Qed.
Definition only_null (os : cos) (no_stdout : bool) (c : ccall) : Prop := match c with CClose fd => no_stdout = true /\ (fd = 1 \/ fd = 2 \/ co_null os = inl fd) | _ => True end.
Lemma grows_end os arguments no_stdout env w : grows (only_null os no_stdout) (child_end os arguments no_stdout env w).
Proof.
  unfold child_end. apply grows_bind; [|intros; apply grows_ret]. apply grows_bind; [|intros; apply grows_raise]. apply grows_try.
  - unfold execChild. apply grows_bind.
    + destruct no_stdout; [|apply grows_ret]. apply grows_try.
      * apply grows_bind; [now apply grows_did|]. intros _. destruct (co_null os) as [null|x] eqn:En; [|apply grows_raise]. apply grows_bind; [apply grows_upd|]. intros _.
        apply grows_bind; [now apply grows_dup2|]. intros _. apply grows_bind; [now apply grows_dup2|]. intros _. apply grows_close. cbn. split; [reflexivity|]. rewrite En. auto.
      * intros x. destruct (is_oserror (px_exn x)); [|apply grows_raise]. apply grows_bind; [|intros _]; apply grows_close; cbn; split; auto.
    + intros _. apply grows_try.
      * destruct arguments; [apply grows_raise|]. apply grows_bind; [now apply grows_did|]. intros _. destruct (co_exec os _ env); [apply grows_raise|]. intros st. exists []. split; [reflexivity|constructor].
      * intros x. destruct (is_exception (px_exn x)); apply grows_raise.
  - intros x. destruct (co_dumps os x); [|apply grows_raise]. now apply grows_write.
Qed.
Lemma run_calls c : good_start c -> exists l, rev (c_calls (fst (run_child c))) = child_calls (cr_maxfd c) (cr_read c) (cr_write c) (closing c) (cr_pass_fds c) ++ l /\
  forall fd, In (CClose fd) l -> cr_no_stdout c = true /\ (fd = 1 \/ fd = 2 \/ co_null (cr_child c) = inl fd).
Proof.
  intros H. destruct (run_child_prefix c H) as (st & (C & P & F) & E). rewrite E. destruct (grows_end (cr_child c) (cr_arguments c) (cr_no_stdout c) (cr_env c) (cr_write c) st) as (l & El & Hl).
  exists (rev l). split; [rewrite El, rev_app_distr, C; cbn [c_calls before]; now rewrite app_nil_r, rev_involutive|]. intros fd Hfd. apply in_rev in Hfd. rewrite Forall_forall in Hl. exact (Hl _ Hfd).
Qed.

(** ** Errors *)
Lemma run_both c : sound_creation c -> good_start c ->
  (snd (run_child c) = Execed (cr_arguments c) (cr_env c) /\ snd (run_parent c) = Ret (cr_pid c) /\ ~ In (CWaitpid (cr_pid c) 0) (c_calls (fst (run_parent c)))) \/
  (exists x, snd (run_child c) = Raise (PyExn (ESystemExit 255) (T "255")) /\ snd (run_parent c) = Raise x /\ hd_error (c_calls (fst (run_parent c))) = Some (CWaitpid (cr_pid c) 0)).
Proof.
  intros (Hpid & Hf & Cr & Cw & (k & rest & Hrd) & (kw & restw & Hwt) & (kx & restx & Hwr) & Hpk) H.
  destruct (run_child_prefix c H) as (st & (C & P & F) & E). destruct (exec_outcomes (cr_child c) (cr_arguments c) (cr_no_stdout c) (cr_env c) st) as (st' & o & E1 & P1 & [->|(x & ->)]).
  - left. rewrite (end_exec _ _ _ _ _ _ _ E1) in E.
    destruct (parent_run (cr_parent c) (cr_maxfd c) _ _ _ _ _ _ _ _ _ (cr_arguments c) (cr_no_stdout c) (cr_env c) (cr_close_fds c) (cr_pass_fds c) Hpid Hf Cr Cw Hrd Hwt) as (sp & Ep & Fp & Pp & Clp).
    fold (run_parent c) in Ep. assert (c_pipe (fst (run_child c)) = []) as Epipe by (rewrite E; cbn; now rewrite P1, P). rewrite Epipe in Ep, Clp. rewrite E, Ep. split; [reflexivity|]. split; [reflexivity|]. cbn [fst]. rewrite Clp.
    cbn [app]. intros [F1|F1]; [discriminate|]. apply in_app_or in F1 as [F1|F1]; [|cbn in F1; intuition discriminate]. apply repeat_spec in F1. discriminate.
  - right. destruct (Hpk x) as (data & Hd & Hne & Hl). rewrite (end_raise _ _ _ _ _ _ _ _ _ _ _ E1 Hd Hwr) in E.
    destruct (parent_run (cr_parent c) (cr_maxfd c) _ _ _ _ _ _ _ _ _ (cr_arguments c) (cr_no_stdout c) (cr_env c) (cr_close_fds c) (cr_pass_fds c) Hpid Hf Cr Cw Hrd Hwt) as (sp & Ep & Fp & Pp & Clp).
    fold (run_parent c) in Ep. assert (c_pipe (fst (run_child c)) = data) as Epipe by (rewrite E; cbn; now rewrite P1, P). rewrite Epipe in Ep, Clp. exists x. rewrite E, Ep. split; [reflexivity|]. cbn [fst snd]. rewrite Clp.
    destruct data as [|b data]; [congruence|]. rewrite Hl. split; [reflexivity|]. reflexivity.
Qed.
Lemma run_fails c x : sound_creation c -> good_start c -> cr_no_stdout c = false ->
  (cr_arguments c = [] /\ x = T "list index out of range" \/ cr_arguments c <> [] /\ exists e, co_exec (cr_child c) (cr_arguments c) (cr_env c) = Some (PyExn e x) /\ is_exception e = true) ->
  snd (run_child c) = Raise (PyExn (ESystemExit 255) (T "255")) /\ snd (run_parent c) = Raise (PyExn EChildError x) /\ hd_error (c_calls (fst (run_parent c))) = Some (CWaitpid (cr_pid c) 0).
Proof.
  intros (Hpid & Hf & Cr & Cw & (k & rest & Hrd) & (kw & restw & Hwt) & (kx & restx & Hwr) & Hpk) H Hn Hx.
  destruct (run_child_prefix c H) as (st & (C & P & F) & E). rewrite Hn in E.
  assert (exists st', execChild (cr_child c) (cr_arguments c) false (cr_env c) st = (st', Raise (PyExn EChildError x)) /\ c_pipe st' = c_pipe st) as (st' & E1 & P1).
  { destruct Hx as [(-> & ->)|(Ha & e & Hc & He)]; [exists st; split; reflexivity|]. eexists. split; [apply (exec_fails _ _ _ _ (PyExn e x)); [exact Hc|exact He|exact Ha]|]. reflexivity. }
  destruct (Hpk (PyExn EChildError x)) as (data & Hd & Hne & Hl). rewrite (end_raise _ _ _ _ _ _ _ _ _ _ _ E1 Hd Hwr) in E.
  destruct (parent_run (cr_parent c) (cr_maxfd c) _ _ _ _ _ _ _ _ _ (cr_arguments c) (cr_no_stdout c) (cr_env c) (cr_close_fds c) (cr_pass_fds c) Hpid Hf Cr Cw Hrd Hwt) as (sp & Ep & Fp & Pp & Clp).
  fold (run_parent c) in Ep. assert (c_pipe (fst (run_child c)) = data) as Epipe by (rewrite E; cbn; now rewrite P1, P). rewrite Epipe in Ep, Clp. rewrite E, Ep. split; [reflexivity|]. cbn [fst snd]. rewrite Clp.
  destruct data as [|b data]; [congruence|]. rewrite Hl. split; reflexivity.
Qed.
Lemma run_works c : sound_creation c -> good_start c -> executable c -> cr_no_stdout c = false ->
  snd (run_child c) = Execed (cr_arguments c) (cr_env c) /\ snd (run_parent c) = Ret (cr_pid c).
Proof.
  intros Hs H He Hn. destruct (run_both c Hs H) as [(E1 & E2 & _)|(x & E1 & _)]; [split; assumption|]. destruct (run_exec c H He Hn) as (st & E & _). rewrite E in E1. discriminate.
Qed.
Lemma parent_fds c : sound_creation c -> forall fd, c_fds (fst (run_parent c)) fd = cr_fds c fd.
Proof.
  intros (Hpid & Hf & Cr & Cw & (k & rest & Hrd) & (kw & restw & Hwt) & (kx & restx & Hwr) & Hpk).
  destruct (parent_run (cr_parent c) (cr_maxfd c) _ _ _ _ _ _ _ _ _ (cr_arguments c) (cr_no_stdout c) (cr_env c) (cr_close_fds c) (cr_pass_fds c) Hpid Hf Cr Cw Hrd Hwt) as (sp & Ep & Fp & _).
  fold (run_parent c) in Ep. rewrite Ep. exact Fp.
Qed.
(** Interruptions change nothing but the number of attempts *)
Lemma retry_read fd size k data rest st : exists st', read_no_intr fd size (interrupted_read k data rest) st = (st', Ret data) /\
  c_calls st' = repeat (CRead fd size) (S k) ++ c_calls st /\ c_fds st' = c_fds st /\ c_pipe st' = c_pipe st.
Proof. eexists. split; [apply read_retry|]. repeat split. Qed.
Lemma retry_wait pid options k rest st : exists st', waitpid_no_intr pid options (interrupted k rest) st = (st', Ret tt) /\
  c_calls st' = repeat (CWaitpid pid options) (S k) ++ c_calls st /\ c_fds st' = c_fds st /\ c_pipe st' = c_pipe st.
Proof. eexists. split; [apply wait_retry|]. repeat split. Qed.
Lemma retry_write fd data k rest st : exists st', write_no_intr fd data (interrupted k rest) st = (st', Ret tt) /\
  c_calls st' = repeat (CWrite fd data) (S k) ++ c_calls st /\ c_fds st' = c_fds st /\ c_pipe st' = c_pipe st ++ data.
Proof. eexists. split; [apply write_retry|]. repeat split. Qed.
(** Another error is not retried *)
Lemma other_read fd size k e rest st : e <> EINTR -> exists st', read_no_intr fd size (repeat (inr EINTR) k ++ inr e :: rest) st = (st', Raise (oserror e)) /\ c_calls st' = repeat (CRead fd size) (S k) ++ c_calls st.
Proof.
  intros He. apply Z.eqb_neq in He. revert st. induction k as [|k IH]; intros st; cbn [repeat app read_no_intr].
  - eexists. unfold cbind, did. rewrite He. split; reflexivity.
  - unfold cbind at 1, did. rewrite Z.eqb_refl. destruct (IH (CState (c_fds st) (CRead fd size :: c_calls st) (c_pipe st))) as (st' & E & C). exists st'. split; [exact E|]. rewrite C. cbn [c_calls].
    change (CRead fd size :: c_calls st) with ([CRead fd size] ++ c_calls st). rewrite app_assoc. f_equal. clear. induction k as [|k IH]; [reflexivity|]. cbn [repeat app] in *. now rewrite IH.
Qed.

(** ** A concrete creation *)
Definition std_fds : fdtable := fun x => if (0 <=? x) && (x <? 3) then Some (Desc 0 (FFile x)) else if x =? 5 then Some (Desc 1 (FFile 5)) else if x =? 7 then Some (Desc 0 (FFile 7)) else if x =? 300 then Some (Desc 0 (FFile 300)) else None.
(** Pickle, for the example: a letter for the kind of exception, its number in unary, its message *)
Fixpoint unary (p : nat) (m : list byte) : list byte := match p with O => "0"%char :: m | S p => "1"%char :: unary p m end.
Fixpoint count (l : list byte) : nat * list byte := match l with "1"%char :: l => let (n, m) := count l in (S n, m) | _ :: m => (O, m) | [] => (O, []) end.
Definition enc_Z (z : Z) (m : list byte) : list byte := if z <? 0 then "-"%char :: unary (Z.to_nat (- z)) m else "+"%char :: unary (Z.to_nat z) m.
Definition dec_Z (l : list byte) : Z * list byte := match l with "-"%char :: l => let (n, m) := count l in (- Z.of_nat n, m) | _ :: l => let (n, m) := count l in (Z.of_nat n, m) | [] => (0, []) end.
Definition pickle (x : pyexn) : list byte :=
  let m := px_msg x in
  match px_exn x with
  | ETypeError => "a"%char :: m | EValueError => "b"%char :: m | EKeyError => "c"%char :: m | EIndexError => "d"%char :: m | EOverflowError => "e"%char :: m | EZeroDivisionError => "f"%char :: m | EStructError => "g"%char :: m | ESyntaxError => "h"%char :: m | ENameError => "i"%char :: m | EAttributeError => "j"%char :: m | EUnboundLocalError => "k"%char :: m | ENotImplementedError => "l"%char :: m | EUnicodeError => "m"%char :: m | EKeyboardInterrupt => "n"%char :: m | EStopIteration => "o"%char :: m | EProcessError => "p"%char :: m | EDebuggerError => "q"%char :: m | EChildError => "r"%char :: m | EProcError => "s"%char :: m | EImportError => "t"%char :: m | EAssertionError => "u"%char :: m | EUndefined => "v"%char :: m | EDiverges => "w"%char :: m
  | EOSError z => "O"%char :: enc_Z z m | EPtraceError (Some z) => "P"%char :: enc_Z z m | EPtraceError None => "N"%char :: m | ESystemExit z => "X"%char :: enc_Z z m
  end.
Definition unpickle (l : list byte) : pyexn :=
  match l with
  | "a"%char :: m => PyExn ETypeError m | "b"%char :: m => PyExn EValueError m | "c"%char :: m => PyExn EKeyError m | "d"%char :: m => PyExn EIndexError m | "e"%char :: m => PyExn EOverflowError m | "f"%char :: m => PyExn EZeroDivisionError m | "g"%char :: m => PyExn EStructError m | "h"%char :: m => PyExn ESyntaxError m | "i"%char :: m => PyExn ENameError m | "j"%char :: m => PyExn EAttributeError m | "k"%char :: m => PyExn EUnboundLocalError m | "l"%char :: m => PyExn ENotImplementedError m | "m"%char :: m => PyExn EUnicodeError m | "n"%char :: m => PyExn EKeyboardInterrupt m | "o"%char :: m => PyExn EStopIteration m | "p"%char :: m => PyExn EProcessError m | "q"%char :: m => PyExn EDebuggerError m | "r"%char :: m => PyExn EChildError m | "s"%char :: m => PyExn EProcError m | "t"%char :: m => PyExn EImportError m | "u"%char :: m => PyExn EAssertionError m | "v"%char :: m => PyExn EUndefined m | "w"%char :: m => PyExn EDiverges m
  | "O"%char :: l => let (z, m) := dec_Z l in PyExn (EOSError z) m | "P"%char :: l => let (z, m) := dec_Z l in PyExn (EPtraceError (Some z)) m
  | "N"%char :: m => PyExn (EPtraceError None) m | "X"%char :: l => let (z, m) := dec_Z l in PyExn (ESystemExit z) m
  | _ => PyExn EValueError []
  end.
Lemma count_unary p m : count (unary p m) = (p, m).
Proof. induction p as [|p IH]; cbn; [reflexivity|]. now rewrite IH. Qed.
Lemma dec_enc z m : dec_Z (enc_Z z m) = (z, m).
Proof. unfold enc_Z. destruct (z <? 0) eqn:E; cbn; rewrite count_unary; f_equal; [apply Z.ltb_lt in E|apply Z.ltb_ge in E]; lia. Qed.
Lemma unpickle_pickle x : unpickle (pickle x) = x.
Proof. destruct x as [e m]. destruct e as [| | | | | | | | | | | | | | |z|[z|]| | | | | | |z| |]; cbn; try reflexivity; now rewrite dec_enc. Qed.
Definition the_os (traceme : option pyexn) (exec : option pyexn) (read : list (list byte + Z)) : cos :=
  COs traceme (fun _ => None) (inl 3) (fun _ _ => None) (fun _ _ => exec) (interrupted 1 []) read (interrupted 2 [])
      (fun x => inl (pickle x)) unpickle.
Definition ls (traceme exec : option pyexn) (read : list byte) (no_stdout close_fds : bool) (pass_fds : list Z) : creation :=
  Creation std_fds 3 4 42 256 (the_os traceme exec []) (the_os None None (interrupted_read 1 read [])) [T "ls"; T "-l"] no_stdout None close_fds pass_fds.
Lemma std_pipe : fresh_pipe std_fds 3 4.
Proof. split; [discriminate|]. split; reflexivity. Qed.
Lemma ls_start exec read ns cf pass : Forall (fun fd => In fd [0; 1; 2; 5; 7; 300]) pass -> good_start (ls None exec read ns cf pass).
Proof.
  intros H. rewrite Forall_forall in H. split; [exact std_pipe|]. split; [intros F; apply H in F; cbn in F; intuition discriminate|]. split; [intros F; apply H in F; cbn in F; intuition discriminate|].
  split; [reflexivity|]. split; [reflexivity|]. apply Forall_forall. intros fd Hfd. apply H in Hfd. cbn in Hfd. intuition; subst; discriminate.
Qed.
Lemma ls_sound traceme exec read ns cf pass : c_pipe (fst (run_child (ls traceme exec read ns cf pass))) = read -> sound_creation (ls traceme exec read ns cf pass).
Proof.
  intros E. split; [discriminate|]. split; [exact std_pipe|]. split; [reflexivity|]. split; [reflexivity|]. split; [exists 1%nat, []; rewrite E; reflexivity|]. split; [exists 2%nat, []; reflexivity|]. split; [exists 1%nat, []; reflexivity|].
  intros x. exists (pickle x). split; [reflexivity|]. split; [|apply unpickle_pickle]. destruct x as [[| | | | | | | | | | | | | | |z|[z|]| | | | | | |z| |] m]; discriminate.
Qed.
Definition enoent : pyexn := PyExn (EOSError 2) (T "[Errno 2] No such file or directory").
Lemma traceme_wrong : exists c, sound_creation c /\ cr_pid c = 42 /\ co_traceme (cr_child c) = Some (PyExn (EPtraceError (Some 1)) (T "ptrace(cmd=0) error #1: Operation not permitted")) /\
  snd (run_child c) = Raise (PyExn EChildError (T "ptrace(cmd=0) error #1: Operation not permitted")) /\ snd (run_parent c) = Ret 42 /\ c_pipe (fst (run_child c)) = [].
Proof. exists (ls (Some (PyExn (EPtraceError (Some 1)) (T "ptrace(cmd=0) error #1: Operation not permitted"))) None [] false true []). split; [apply ls_sound; vm_compute; reflexivity|]. split; [reflexivity|]. split; [reflexivity|]. split; [vm_compute; reflexivity|]. split; vm_compute; reflexivity. Qed.
Lemma passed_wrong : exists c, cr_pass_fds c = [9] /\ cr_fds c 9 = None /\ sound_creation c /\ snd (run_child c) = Raise (oserror EBADF) /\ snd (run_parent c) = Ret 42.
Proof. exists (ls None None [] false true [9]). split; [reflexivity|]. split; [reflexivity|]. split; [apply ls_sound; vm_compute; reflexivity|]. split; vm_compute; reflexivity. Qed.
(** The standard output was closed: the null device is opened on descriptor 1, that is closed again *)
Definition no_output : creation :=
  Creation (fd_set std_fds 1 None) 3 4 42 256 (COs None (fun _ => None) (inl 1) (fun _ _ => None) (fun _ _ => None) (interrupted 0 []) [] [] (fun x => inl (pickle x)) unpickle) (the_os None None (interrupted_read 0 [] [])) [T "ls"] true None true [].
Lemma null_wrong : good_start no_output /\ executable no_output /\ cr_fds no_output 1 = None /\ null_works no_output 1 /\ snd (run_child no_output) = Execed [T "ls"] None /\ c_fds (fst (run_child no_output)) 1 = None.
Proof.
  split; [|split; [|split; [|split; [|split]]]].
  - split; [split; [discriminate|]; split; reflexivity|]. split; [intros []|]. split; [intros []|]. split; [reflexivity|]. split; [reflexivity|]. constructor.
  - split; [discriminate|reflexivity].
  - reflexivity.
  - split; [reflexivity|]. split; [reflexivity|]. split; reflexivity.
  - vm_compute. reflexivity.
  - vm_compute. reflexivity.
Qed.
Lemma fork_wrong : exists st x, createChild (the_os None None []) 256 (inl (3, 4)) (inr (PyExn (EOSError 11) (T "Resource temporarily unavailable"))) [T "ls"] false None true [] (before std_fds) = (st, Raise x) /\
  std_fds 3 = None /\ std_fds 4 = None /\ c_fds st 3 = Some (Desc 1 (FPipe false)) /\ c_fds st 4 = Some (Desc 1 (FPipe true)).
Proof. eexists. eexists. split; [reflexivity|]. split; [reflexivity|]. split; [reflexivity|]. split; reflexivity. Qed.
