(** * SysProofs4: the arguments of a call when it returns. *)
From Coq Require Import ZArith List Ascii String Bool Lia.
From Verif Require Import PyBase PyFacts Platform IntModel RegModel SigModel TabModel TabSpec TabProofs ArgModel ArgSpec ArgProofs3 DbgModel SysModel SysSpec SysProofs SysProofs3.
Import ListNotations.
Open Scope Z_scope.

Lemma preformat_spec name i : existsb (Nat.eqb i) (preformat name) = true <-> In (name, i) lost_arguments.
Proof.
  unfold preformat, PREFORMAT_ARGUMENTS, lost_arguments. cbn [dget].
  destruct (text_eqb name (T "select")) eqn:E1; [apply text_eqb_eq in E1; subst|destruct (text_eqb name (T "execve")) eqn:E2; [apply text_eqb_eq in E2; subst|destruct (text_eqb name (T "clone")) eqn:E3; [apply text_eqb_eq in E3; subst|]]].
  - split; [intros H; apply existsb_exists in H as (j & Hj & E); apply Nat.eqb_eq in E; subst j; repeat (destruct Hj as [<-|Hj]; [cbn [In]; tauto|]); destruct Hj|].
    intros H. repeat (destruct H as [H|H]; [first [discriminate H|injection H as <-; reflexivity]|]). destruct H.
  - split; [intros H; apply existsb_exists in H as (j & Hj & E); apply Nat.eqb_eq in E; subst j; repeat (destruct Hj as [<-|Hj]; [cbn [In]; tauto|]); destruct Hj|].
    intros H. repeat (destruct H as [H|H]; [first [discriminate H|injection H as <-; reflexivity]|]). destruct H.
  - split; [intros H; apply existsb_exists in H as (j & Hj & E); apply Nat.eqb_eq in E; subst j; repeat (destruct Hj as [<-|Hj]; [cbn [In]; tauto|]); destruct Hj|].
    intros H. repeat (destruct H as [H|H]; [first [discriminate H|injection H as <-; reflexivity]|]). destruct H.
  - split; [discriminate|]. intros H. exfalso. repeat (destruct H as [H|H]; [injection H as <- _; first [rewrite text_eqb_refl in E1; discriminate|rewrite text_eqb_refl in E2; discriminate|rewrite text_eqb_refl in E3; discriminate]|]). destruct H.
Qed.
Lemma forget_nth skip l : forall i k a, nth_error l k = Some a ->
  nth_error (forget skip i l) k = Some (if existsb (Nat.eqb (i + k)) skip then a else if truthy (a_type a) && negb (ends_with (T "*") (get (a_type a))) then a else set_text a None).
Proof.
  induction l as [|b l IH]; intros i [|k] a H; cbn [nth_error] in H; try discriminate.
  - injection H as ->. cbn [forget nth_error]. now rewrite Nat.add_0_r.
  - cbn [forget nth_error]. rewrite (IH (S i) k a H). now rewrite Nat.add_succ_comm.
Qed.
Lemma exit_arguments p errorcode strerror r c c' t : exit_ p errorcode strerror (Ok r) c = Ok (c', t) ->
  List.length (f_args (c_func c')) = List.length (f_args (c_func c)) /\
  forall i a, nth_error (f_args (c_func c)) i = Some a -> exists a', nth_error (f_args (c_func c')) i = Some a' /\
    (a_value a', a_type a', a_name a') = (a_value a, a_type a, a_name a) /\
    (In (f_name (c_func c), i) lost_arguments -> a_text a' = a_text a) /\
    (~ In (f_name (c_func c), i) lost_arguments -> is_pointer a \/ absent (a_type a) -> a_text a' = None) /\
    (~ is_pointer a -> ~ absent (a_type a) -> a_text a' = a_text a).
Proof.
  unfold exit_. cbn [bind]. destruct (result_text _ _ _ _ _) as [value x]. intros [= <- _]. cbn [c_func set_args f_args].
  set (skip := preformat (f_name (c_func c))). split.
  - generalize 0%nat. induction (f_args (c_func c)) as [|a l IH]; intros i; [reflexivity|]. cbn [forget List.length]. now rewrite IH.
  - intros i a Ha. eexists. split; [exact (forget_nth skip _ 0 i a Ha)|]. cbn [Nat.add].
    assert (forall ty, a_type a = Some ty -> ends_with (T "*") ty = true <-> is_pointer a) as Hp.
    { intros ty Ht. rewrite ends_with_spec. unfold is_pointer. rewrite Ht. split; intros (b & E); exists b; congruence. }
    destruct (existsb (Nat.eqb i) skip) eqn:E.
    + apply preformat_spec in E. split; [reflexivity|]. split; [reflexivity|]. split; [intros H; contradiction|reflexivity].
    + assert (~ In (f_name (c_func c), i) lost_arguments) as Hl by (intros H; apply preformat_spec in H; unfold skip in E; congruence).
      destruct (a_type a) as [[|ch ty]|] eqn:Et; cbn [truthy get andb].
      * split; [cbn; now rewrite Et|]. split; [intros H; contradiction|]. split; [reflexivity|]. intros _ H. exfalso. apply H. now right.
      * destruct (ends_with (T "*") (ch :: ty)) eqn:Ee; cbn [negb].
        -- split; [cbn; now rewrite Et|]. split; [intros H; contradiction|]. split; [reflexivity|]. intros H. exfalso. apply H. now apply (Hp _ eq_refl).
        -- split; [now rewrite Et|]. split; [reflexivity|]. split; [|reflexivity]. intros _ [H|[H|H]]; [|discriminate H|discriminate H]. apply (Hp _ eq_refl) in H. congruence.
      * split; [cbn; now rewrite Et|]. split; [intros H; contradiction|]. split; [reflexivity|]. intros _ H. exfalso. apply H. now left.
Qed.
Section Enter.
  Context (p : platform) (ns : namespace) (repr_fs : list byte -> text).
  Lemma upd_nth_at {A} (g : A -> A) l i : nth_error (upd_nth i g l) i = option_map g (nth_error l i).
  Proof. revert i. induction l as [|a l IH]; intros [|i]; cbn; [reflexivity|reflexivity|reflexivity|apply IH]. Qed.
  Lemma upd_nth_other {A} (g : A -> A) l i j : i <> j -> nth_error (upd_nth i g l) j = nth_error l j.
  Proof. revert i j. induction l as [|a l IH]; intros [|i] [|j] H; cbn; try reflexivity; try congruence. apply IH. congruence. Qed.
  Lemma format_now_texts opts v : forall indices f f', format_now p ns repr_fs opts v indices f = Ok f' ->
    forall i, In i indices \/ (exists a t, nth_error (f_args f) i = Some a /\ a_text a = Some t) -> exists a t, nth_error (f_args f') i = Some a /\ a_text a = Some t.
  Proof.
    induction indices as [|k indices IH]; intros f f' E i Hi; cbn [format_now] in E.
    - injection E as <-. destruct Hi as [[]|Hi]. exact Hi.
    - destruct (nth_arg k (f_args f)) as [a|e] eqn:Ea; cbn [bind] in E; [|discriminate E]. destruct (getText p ns repr_fs opts v f a) as [t|e]; cbn [bind] in E; [|discriminate E].
      apply (IH _ _ E). unfold nth_arg in Ea. destruct (nth_error (f_args f) k) as [a0|] eqn:En; [|discriminate Ea]. cbn [set_args f_args].
      destruct (Nat.eq_dec k i) as [<-|Hk].
      + right. exists (set_text a0 (Some t)), t. rewrite upd_nth_at, En. split; reflexivity.
      + destruct Hi as [[Hi|Hi]|Hi]; [congruence|now left|]. right. rewrite upd_nth_other by exact Hk. exact Hi.
  Qed.
  Lemma enter_texts opts v sp regs c c' : enter p ns repr_fs opts v sp regs c = Ok c' ->
    forall i, In (f_name (c_func c'), i) lost_arguments -> exists a t, nth_error (f_args (c_func c')) i = Some a /\ a_text a = Some t.
  Proof.
    unfold enter. intros H. destruct (readArgumentValues p v sp regs) as [values|e]; cbn [bind] in H; [|discriminate H].
    match type of H with (bind ?m _ = _) => destruct m as [f|e]; cbn [bind] in H; [|discriminate H] end.
    destruct (format_now p ns repr_fs opts v (preformat (f_name f)) f) as [f'|e] eqn:Ef; cbn [bind] in H; [|discriminate H].
    destruct (if o_instr_pointer opts then _ else _) as [ip|e]; cbn [bind] in H; [|discriminate H]. injection H as <-. cbn [c_func].
    destruct (format_now_spec p ns repr_fs opts v _ _ _ Ef) as (En & _ & _). intros i Hi. rewrite En in Hi. apply preformat_spec in Hi.
    apply (format_now_texts opts v _ _ _ Ef). left. apply existsb_exists in Hi as (j & Hj & E). apply Nat.eqb_eq in E. now subst.
  Qed.
End Enter.
Lemma bsd_register p r : running_linux p = false -> bsd_number (p_cpu p) = Some r -> SYSCALL_REGISTER p = r.
Proof. intros Hl. unfold SYSCALL_REGISTER. rewrite Hl. destruct (p_cpu p); cbn [bsd_number]; congruence. Qed.
(** The descriptors of pipe() that were shown when it was called stay *)
Definition pipe_regs : registers := regs_of (combine (T "orig_rax" :: abi_arguments X86_64) [22; 4096; 0; 0; 0; 0; 0]).
Definition zeros8 : view := mem_view linux_x86_64 4096 (repeat (z2b 0) 8).
Definition pipe8 : view := mem_view linux_x86_64 4096 (map z2b [3; 0; 0; 0; 4; 0; 0; 0]).
Lemma stale_pipe : exists c c1 f1 c2 t f2,
  new_syscall linux_x86_64 pipe_regs = Ok c /\ enter linux_x86_64 no_names repr_ascii default_options zeros8 (Ok 0) pipe_regs c = Ok c1 /\
  format linux_x86_64 no_names repr_ascii default_options zeros8 (c_func c1) = Ok (f1, T "pipe(<(0, 0)>)") /\
  exit_ linux_x86_64 ENOENT_only strerror_ex (Ok 0) (SyscallCall f1 (c_number c1) (c_result c1) (c_result_text c1) (c_instr_pointer c1)) = Ok (c2, t) /\
  memory_at pipe8 4096 (map z2b [3; 0; 0; 0; 4; 0; 0; 0]) /\
  format linux_x86_64 no_names repr_ascii default_options pipe8 (c_func c2) = Ok (f2, T "pipe(<(0, 0)>)") /\
  exists f3, format linux_x86_64 no_names repr_ascii default_options pipe8 (c_func c1) = Ok (f3, T "pipe(<(3, 4)>)").
Proof.
  do 6 eexists. split; [vm_compute; reflexivity|]. split; [vm_compute; reflexivity|]. split; [vm_compute; reflexivity|]. split; [vm_compute; reflexivity|].
  split; [apply mem_view_at|]. split; [vm_compute; reflexivity|]. eexists. vm_compute. reflexivity.
Qed.
(** stat("/tmp", …): the text of a pointer that was shown before the call is made again afterwards; execve(): it is kept *)
Definition regs6 (n : Z) (l : list Z) : registers := regs_of (combine (T "orig_rax" :: abi_arguments X86_64) (n :: l)).
Definition path_a : view := mem_view linux_x86_64 4096 (T "/a" ++ [z2b 0]).
Definition path_b : view := mem_view linux_x86_64 4096 (T "/b" ++ [z2b 0]).
Definition whole_call (n : Z) (l : list Z) (before after : view) : res (text * text) :=
  do c <- new_syscall linux_x86_64 (regs6 n l);
  do c <- enter linux_x86_64 no_names repr_ascii default_options before (Ok 0) (regs6 n l) c;
  do ft <- format linux_x86_64 no_names repr_ascii default_options before (c_func c);
  do ct <- exit_ linux_x86_64 ENOENT_only strerror_ex (Ok 0) (SyscallCall (fst ft) (c_number c) (c_result c) (c_result_text c) (c_instr_pointer c));
  do ft' <- format linux_x86_64 no_names repr_ascii default_options after (c_func (fst ct));
  Ok (snd ft, snd ft').

(** ** The address of the call, and entries which fail *)
Lemma enter_pointer p ns repr_fs opts v sp regs c c' : enter p ns repr_fs opts v sp regs c = Ok c' ->
  if o_instr_pointer opts then exists name ip, CPU_INSTR_POINTER p = Some name /\ regs name = Ok ip /\ c_instr_pointer c' = Some ip
  else c_instr_pointer c' = c_instr_pointer c.
Proof.
  unfold enter. destruct (readArgumentValues p v sp regs) as [values|e]; cbn [bind]; [|discriminate].
  match goal with |- context [bind ?m _] => destruct m as [f|e]; cbn [bind]; [|discriminate] end.
  match goal with |- context [bind ?m _] => destruct m as [f'|e]; cbn [bind]; [|discriminate] end.
  destruct (o_instr_pointer opts).
  - destruct (CPU_INSTR_POINTER p) as [name|]; cbn [bind]; [|discriminate]. destruct (regs name) as [ip|e] eqn:E; cbn [bind]; [|discriminate].
    intros [= <-]. exists name, ip. split; [reflexivity|]. split; [exact E|reflexivity].
  - cbn [bind]. intros [= <-]. reflexivity.
Qed.
Lemma failed_enter p ns repr_fs errorcode strerror K trap ignore opts fuel id st s d regs c e :
  ss_exit s = false -> st_regs st = Ok regs -> new_syscall p regs = Ok c -> (forall ignore', ignore = Some ignore' -> ignore' c = false) ->
  enter p ns repr_fs opts (st_view st) (st_sp st) regs c = Err e ->
  ss_event p ns repr_fs errorcode strerror K trap ignore opts fuel id st (s, d) = ((SState (Some c) (Some (f_name (c_func c))) false, d), Raise (XErr e)).
Proof.
  intros Hs Hr Hn Hi He. unfold ss_event, ss_enter, sbind, sget, slift, sput. cbn [fst snd]. rewrite Hs, Hr, Hn.
  replace (match ignore with Some ignore' => negb (ignore' c) | None => true end) with true by (destruct ignore as [g|]; [now rewrite (Hi g eq_refl)|reflexivity]).
  rewrite He. cbn [fst snd]. now rewrite Hs.
Qed.
