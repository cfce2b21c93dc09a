(** * StraceProofs3: what strace.py shows, the name filter, the end of the program. *)
From Coq Require Import ZArith List Ascii String Bool Lia.
From Verif Require Import PyBase PyFacts Platform IntModel RegModel SigModel TabModel TabSpec TabProofs ToolsModel ArgModel DbgModel DbgSpec DbgProofs DbgProofs2 DbgProofs3 DbgProofs4 DbgProofs5 DbgFinal DbgFinal2
  SysModel SysSpec SysProofs SysProofs2 SysProofs3 ProcModel StraceModel StraceSpec StraceProofs StraceProofs2.
Import ListNotations.
Open Scope Z_scope.
#[local] Opaque SYSCALL_PROTOTYPES.

(** ** The set of names *)
Lemma set_add_In x l y : In y (set_add x l) <-> In y l \/ y = x.
Proof.
  unfold set_add. destruct (mem x l) eqn:E.
  - apply mem_In in E. split; [tauto|]. intros [H| ->]; auto.
  - rewrite in_app_iff. cbn. intuition congruence.
Qed.
Lemma fold_add_In xs : forall l y, In y (fold_left (fun l x => set_add x l) xs l) <-> In y l \/ In y xs.
Proof. induction xs as [|x xs IH]; intros l y; cbn [fold_left In]; [tauto|]. rewrite IH, set_add_In. intuition congruence. Qed.
Lemma items_In valid items : forall only only' x, only_items valid only items = inl only' ->
  (In x only' <-> In x only \/ exists item, In item items /\ x = strip item /\ x <> []).
Proof.
  induction items as [|item items IH]; intros only only' x; cbn [only_items].
  - intros [= <-]. split; [auto|]. intros [H|(i & [] & _)]. exact H.
  - unfold only_item. cbv zeta. destruct (strip item) as [|c t] eqn:Es; cbn [orb].
    + intros H. rewrite (IH _ _ x H). split; (intros [Hx|(i & Hi & E & Hn)]; [auto|right]).
      * exists i. split; [now right|auto].
      * destruct Hi as [<-|Hi]; [congruence|]. exists i. auto.
    + destruct (mem (c :: t) only) eqn:Em.
      * intros H. rewrite (IH _ _ x H). apply mem_In in Em. split; (intros [Hx|(i & Hi & E & Hn)]; [auto|]).
        -- right. exists i. split; [now right|auto].
        -- destruct Hi as [<-|Hi]; [left; congruence|]. right. exists i. auto.
      * destruct (filter _ only); [|discriminate]. intros H. rewrite (IH _ _ x H), set_add_In. split.
        -- intros [[Hx|Hx]|(i & Hi & E & Hn)]; [auto| |].
           ++ right. exists item. split; [now left|]. rewrite Es. split; [exact Hx|]. rewrite Hx. discriminate.
           ++ right. exists i. split; [now right|auto].
        -- intros [Hx|(i & Hi & E & Hn)]; [auto|]. destruct Hi as [<-|Hi]; [left; right; congruence|]. right. exists i. auto.
Qed.
Lemma join_split c s : join [c] (split_char c s) = s /\ forall x, In x (split_char c s) -> ~ In c x.
Proof.
  induction s as [|a s [IH1 IH2]]; cbn [split_char]; [cbn; split; [reflexivity|]; intros x [<-|[]] []|].
  pose proof (split_char_nonempty c s) as Hne. destruct (split_char c s) as [|y l]; [congruence|]. destruct (Ascii.eqb_spec a c) as [->|Ha].
  - split; [|intros x [<-|Hx]; [intros []|now apply IH2]]. cbn [join app] in *. now rewrite <- IH1.
  - split.
    + cbn [join] in *. destruct l as [|z l]; [now rewrite <- IH1|]. cbn [app]. now rewrite <- IH1.
    + intros x [<-|Hx].
      * intros [E|Hc]; [congruence|]. apply (IH2 y); [now left|exact Hc].
      * apply IH2. now right.
Qed.
Lemma listed_split s name : listed s name <-> exists item, In item (split_char ","%char s) /\ name = strip item /\ name <> [].
Proof.
  split.
  - intros (items & item & Hc & -> & Hin & E & Hn). exists item. rewrite split_join; [auto| |exact Hc]. intros ->. destruct Hin.
  - intros (item & Hin & E & Hn). destruct (join_split ","%char s) as [H1 H2]. exists (split_char ","%char s), item. auto.
Qed.
Lemma filename_In name : In name filename_syscalls <-> takes_filename name.
Proof.
  unfold filename_syscalls, takes_filename, has_prototype. rewrite in_map_iff. split.
  - intros ([n [r f]] & <- & Hin). apply filter_In in Hin as [Hin He]. cbn [fst snd] in *. apply existsb_exists in He as ([ty nm] & Ha & Hm). apply mem_In in Hm. exists r, f, ty, nm. auto.
  - intros (r & f & ty & nm & Hin & Ha & Hm). exists (name, (r, f)). split; [reflexivity|]. apply filter_In. split; [exact Hin|]. cbn [snd]. apply existsb_exists. exists (ty, nm). split; [exact Ha|]. now apply mem_In.
Qed.
Lemma filter_asked names socket_names o only name : only_filter names socket_names o = inl only -> (In name only <-> asked_for socket_names o name).
Proof.
  intros H. unfold only_filter in H.
  match type of H with match ?m with _ => _ end = _ => destruct m as [l|lines] eqn:E; [|discriminate H] end. injection H as <-. unfold asked_for.
  assert (In name l <-> exists s, s_syscalls o = Some s /\ listed s name) as Hl.
  { destruct (s_syscalls o) as [[|c t]|].
    - injection E as <-. split; [intros []|]. intros (s & [= <-] & Hs). apply listed_split in Hs as (item & [<-|[]] & -> & Hn). now destruct Hn.
    - rewrite (items_In _ _ _ _ name E). split.
      + intros [[]|Hi]. exists (c :: t). split; [reflexivity|]. now apply listed_split.
      + intros (s & [= <-] & Hs). right. now apply listed_split.
    - injection E as <-. split; [intros []|]. intros (s & Hs & _). discriminate Hs. }
  destruct (s_socket o); [rewrite fold_add_In|]; (destruct (s_filename o); [rewrite fold_add_In, filename_In|]); rewrite Hl; intuition congruence.
Qed.
(** Unknown names *)
Lemma items_unknown valid items : forall only x, In x only -> ~ In x valid -> (exists item, In item items /\ strip item <> [] /\ ~ In (strip item) only) ->
  exists lines, only_items valid only items = inr lines /\ In (T "ERROR: unknown syscall " ++ repr_ascii x) lines.
Proof.
  induction items as [|item items IH]; intros only x Hx Hv (i & Hi & Hn & Ho); [destruct Hi|]. cbn [only_items]. unfold only_item. cbv zeta.
  assert (In x (filter (fun name => negb (mem name valid)) only)) as Hf.
  { apply filter_In. split; [exact Hx|]. apply negb_true_iff. destruct (mem x valid) eqn:E; [|reflexivity]. apply mem_In in E. contradiction. }
  destruct (strip item) as [|c t] eqn:Es; cbn [orb].
  - destruct Hi as [<-|Hi]; [congruence|]. apply IH; auto. exists i. auto.
  - destruct (mem (c :: t) only) eqn:Em.
    + apply mem_In in Em. destruct Hi as [<-|Hi]; [rewrite Es in Ho; contradiction|]. apply IH; auto. exists i. auto.
    + destruct (filter (fun name => negb (mem name valid)) only) as [|y l]; [destruct Hf|]. eexists. split; [reflexivity|]. apply in_app_iff. left. now apply (in_map (fun name => T "ERROR: unknown syscall " ++ repr_ascii name)) in Hf.
Qed.
Lemma items_app valid a b : forall only, only_items valid only (a ++ b) = match only_items valid only a with inl l => only_items valid l b | inr lines => inr lines end.
Proof. induction a as [|i a IH]; intros only; cbn [app only_items]; [reflexivity|]. destruct (only_item valid only i); [apply IH|reflexivity]. Qed.
Lemma items_lines valid items : forall only lines, only_items valid only items = inr lines -> (forall x, In x only -> x <> []) ->
  exists x, ~ In x valid /\ x <> [] /\ (In x only \/ exists item, In item items /\ x = strip item) /\ In (T "ERROR: unknown syscall " ++ repr_ascii x) lines.
Proof.
  induction items as [|item items IH]; intros only lines; cbn [only_items]; [discriminate|]. unfold only_item. cbv zeta. intros H Hne.
  destruct (strip item) as [|c t] eqn:Es; cbn [orb] in H.
  - destruct (IH _ _ H Hne) as (x & H1 & H2 & H3 & H4). exists x. split; [exact H1|]. split; [exact H2|]. split; [|exact H4]. destruct H3 as [H3|(i & Hi & E)]; [now left|right; exists i; split; [now right|exact E]].
  - destruct (mem (c :: t) only).
    + destruct (IH _ _ H Hne) as (x & H1 & H2 & H3 & H4). exists x. split; [exact H1|]. split; [exact H2|]. split; [|exact H4]. destruct H3 as [H3|(i & Hi & E)]; [now left|right; exists i; split; [now right|exact E]].
    + destruct (filter (fun name => negb (mem name valid)) only) as [|y l] eqn:Ef.
      * destruct (IH _ _ H) as (x & H1 & H2 & H3 & H4). { intros x Hx. apply set_add_In in Hx as [Hx| ->]; [auto|discriminate]. }
        exists x. split; [exact H1|]. split; [exact H2|]. split; [|exact H4]. destruct H3 as [H3|(i & Hi & E)].
        -- apply set_add_In in H3 as [H3| ->]; [now left|]. right. exists item. split; [now left|congruence].
        -- right. exists i. split; [now right|exact E].
      * injection H as <-. assert (In y (filter (fun name => negb (mem name valid)) only)) as Hy by (rewrite Ef; now left). apply filter_In in Hy as [Hy1 Hy2].
        exists y. split; [intros Hv; apply mem_In in Hv; rewrite Hv in Hy2; discriminate|]. split; [now apply Hne|]. split; [now left|]. left. reflexivity.
Qed.
Lemma unknown_rejected names socket_names o s pre a mid b post :
  s_syscalls o = Some s -> s = join [","%char] (pre ++ a :: mid ++ b :: post) -> (forall x, In x (pre ++ a :: mid ++ b :: post) -> ~ In ","%char x) ->
  strip a <> [] -> ~ In (strip a) (map snd names) -> strip b <> [] -> ~ In (strip b) (map strip (pre ++ a :: mid)) ->
  exists lines x, only_filter names socket_names o = inr lines /\ ~ In x (map snd names) /\ In (T "ERROR: unknown syscall " ++ repr_ascii x) lines.
Proof.
  intros Ho Hs Hc Ha1 Ha2 Hb1 Hb2. set (valid := map snd names) in *. assert (split_char ","%char s = pre ++ a :: mid ++ b :: post) as Hsp. { rewrite Hs. apply split_join; [now destruct pre|exact Hc]. }
  assert (exists lines x, only_items valid [] (pre ++ a :: mid ++ b :: post) = inr lines /\ ~ In x valid /\ In (T "ERROR: unknown syscall " ++ repr_ascii x) lines) as (lines & x & E & H1 & H2).
  { change (pre ++ a :: mid ++ b :: post) with (pre ++ (a :: mid) ++ b :: post). rewrite app_assoc, items_app.
    destruct (only_items valid [] (pre ++ a :: mid)) as [l|lines] eqn:E.
    - pose proof (fun x => items_In valid (pre ++ a :: mid) [] l x E) as HI.
      destruct (items_unknown valid (b :: post) l (strip a)) as (lines & E1 & E2); [| |exists b|eauto].
      + apply HI. right. exists a. split; [apply in_app_iff; right; now left|auto].
      + exact Ha2.
      + split; [now left|]. split; [exact Hb1|]. intros Hb. apply HI in Hb as [[]|(i & Hi & E1 & _)]. apply Hb2. rewrite E1. now apply in_map.
    - destruct (items_lines valid _ _ _ E) as (x & H1 & _ & _ & H2); [intros x []|]. exists lines, x. auto. }
  exists lines, x. split; [|auto]. unfold only_filter. rewrite Ho. destruct s as [|c t].
  - exfalso. destruct pre as [|y pre]; cbn in Hsp; injection Hsp; intros; destruct mid; discriminate || destruct pre; discriminate.
  - rewrite Hsp. fold valid. now rewrite E.
Qed.
Lemma rejected_unknown names socket_names o lines : only_filter names socket_names o = inr lines ->
  exists s x, s_syscalls o = Some s /\ listed s x /\ ~ In x (map snd names) /\ In (T "ERROR: unknown syscall " ++ repr_ascii x) lines.
Proof.
  unfold only_filter. destruct (s_syscalls o) as [[|c t]|]; try discriminate. destruct (only_items _ _ _) as [l|ls] eqn:E; [discriminate|]. intros [= <-].
  destruct (items_lines _ _ _ _ E) as (x & H1 & H2 & [[]|(i & Hi & ->)] & H4); [intros x []|]. exists (c :: t), (strip i). split; [reflexivity|]. split; [|auto]. apply listed_split. exists i. auto.
Qed.

Section Facts.
  Context (p : platform) (ns : namespace) (repr_fs : list byte -> text) (errorcode : list (Z * text)) (strerror : Z -> text)
          (K : dkernel) (stops : nat -> nat -> stop) (o : soptions) (only : list text) (child : res Z).
  Notation handle_syscall := (handle_syscall p ns repr_fs errorcode strerror K stops o only).
  Notation handle_exit := (handle_exit p ns repr_fs stops o).
  Notation displaySyscall := (displaySyscall p ns repr_fs stops o).
  Notation state_event := (state_event p ns repr_fs errorcode strerror K stops o only).
  Notation runDebugger := (runDebugger p ns repr_fs errorcode strerror K stops o only child).
  Notation strace_main := (strace_main p ns repr_fs errorcode strerror K stops o only child).

  (** *** Lines *)
  Lemma line_shown pid c t : (s_show_ip o = true -> c_instr_pointer c <> None) -> syscall_line p o pid c t =
    shown_line (if s_show_pid o || s_fork o then Some (str_int pid) else None)
               (if s_show_ip o then match c_instr_pointer c with Some ip => Some (formatAddress p ip) | None => None end else None)
               t (match c_result c with Some _ => Some (get (c_result_text c)) | None => None end).
  Proof.
    intros Hip. unfold syscall_line, shown_line, show_pid, bracketed, in_columns, padr. cbv zeta.
    destruct (s_show_pid o || s_fork o), (s_show_ip o); destruct (c_result c); try (destruct (c_instr_pointer c) as [ip|]; [|now destruct (Hip eq_refl)]); cbn [app]; rewrite <- ?app_assoc; reflexivity.
  Qed.
  Lemma display_shown id c st st' c' : displaySyscall id c st = (st', Ret c') -> exists t line, shown c c' /\
    format p ns repr_fs (syscall_options o) (st_view (the_stop stops st id)) (c_func c) = Ok (c_func c', t) /\
    line = syscall_line p o (pid_of st id) c' t /\ t_log st' = LSyscall id c' line :: t_log st /\ t_dbg st' = t_dbg st /\ t_sys st' = t_sys st.
  Proof.
    intros H. apply display_ok in H as (f & t & Hf & -> & ->). exists t, (syscall_line p o (pid_of st id) (SyscallCall f (c_number c) (c_result c) (c_result_text c) (c_instr_pointer c)) t).
    cbn [c_func t_log t_dbg t_sys]. unfold shown. cbn. auto 10.
  Qed.

  (** *** One stop of a prepared process *)
  Lemma keep_state id c st st' : keep_call id c st = (st', Ret tt) -> state_of st' id = match ss_syscall (state_of st id) with Some _ => SState (Some c) (ss_name (state_of st id)) (ss_exit (state_of st id)) | None => state_of st id end.
  Proof.
    unfold keep_call. intros H. apply (f_equal fst) in H. cbn [fst] in H. destruct (ss_syscall (state_of st id)) as [c0|]; subst st'; [|reflexivity]. now rewrite state_set, Nat.eqb_refl.
  Qed.
  Lemma show_ok id c st st' : tbind (displaySyscall id c) (keep_call id) st = (st', Ret tt) -> exists c' t line, shown c c' /\
    format p ns repr_fs (syscall_options o) (st_view (the_stop stops st id)) (c_func c) = Ok (c_func c', t) /\
    line = syscall_line p o (pid_of st id) c' t /\ t_log st' = LSyscall id c' line :: t_log st /\ t_dbg st' = t_dbg st /\
    state_of st' id = match ss_syscall (state_of st id) with Some _ => SState (Some c') (ss_name (state_of st id)) (ss_exit (state_of st id)) | None => state_of st id end.
  Proof.
    intros H. apply tbind_ok in H as (st1 & c' & H1 & H). apply display_shown in H1 as (t & line & Hs & Hf & Hl & Hlog & Hd & Hsys). exists c', t, line.
    pose proof (keep_state _ _ _ _ H) as Hk. apply keep_ok in H as (H1 & _ & H3 & _). rewrite H1, H3. unfold state_of in Hk at 2 3 4 5. rewrite Hsys in Hk.
    split; [exact Hs|]. split; [exact Hf|]. split; [exact Hl|]. split; [exact Hlog|]. split; [exact Hd|exact Hk].
  Qed.
  Lemma shown_number c c' : shown c c' -> c_number c' = c_number c. Proof. intros H. apply H. Qed.
  (** Enter *)
  Lemma stop_enter f id st st' : handle_syscall f id st = (st', Ret tt) -> is_ready st id = true -> ss_exit (state_of st id) = false ->
    exists regs number name, st_regs (the_stop stops st id) = Ok regs /\ regs (SYSCALL_REGISTER p) = Ok number /\ call_name p number name /\
      ss_exit (state_of st' id) = true /\ ss_name (state_of st' id) = Some name /\
      (selected o only name -> exists c, ss_syscall (state_of st' id) = Some c /\ c_number c = number /\ c_result c = None /\
         (if s_enter o then exists line, t_log st' = LSyscall id c line :: t_log st else t_log st' = t_log st)) /\
      (~ selected o only name -> ss_syscall (state_of st' id) = None /\ t_log st' = t_log st).
  Proof.
    intros H Hr Hx. unfold StraceModel.handle_syscall in H. apply tbind_ok in H as (st1 & r & H1 & H). apply tbind_ok in H as (st2 & [] & H2 & H).
    apply proc_syscall_ok in H as (q & _ & _ & _ & P1 & _ & P3). unfold state_of at 1 2 3 4. rewrite P1, P3. fold (state_of st2 id).
    apply state_event_ok in H1 as (s & d & He & H1). rewrite Hr in He. apply enter_step in He as (regs & c & Hregs & Hn & -> & -> & Hi & Hni); [|exact Hx].
    assert (state_of st1 id = SState r (Some (f_name (c_func c))) true) as Hs1.
    { subst st1. unfold state_of. cbn [t_sys]. now rewrite (dget_dset_same Nat.eqb Nat.eqb_eq). }
    assert (t_log st1 = t_log st) as Hl1 by (subst st1; reflexivity).
    destruct (new_spec p regs c Hn) as (R1 & _ & _ & _ & _ & R6 & _).
    exists regs, (c_number c), (f_name (c_func c)). split; [exact Hregs|]. split; [exact R1|]. split; [now apply (new_call_name p regs)|].
    unfold ignored in *. destruct (ignoreSyscall o only c) eqn:Ei.
    - specialize (Hi eq_refl). subst r. injection H2 as <-. rewrite Hs1, Hl1. cbn [ss_exit ss_name ss_syscall]. split; [reflexivity|]. split; [reflexivity|]. split; [|auto].
      intros Hsel. apply ignore_selected in Hsel. congruence.
    - destruct (Hni eq_refl) as (c' & -> & Hent). assert (c_result c' = None) as Hres.
      { unfold enter in Hent. destruct (readArgumentValues _ _ _ _) as [v|e]; cbn [bind] in Hent; [|discriminate Hent]. cbv zeta in Hent.
        do 3 (match type of Hent with context [bind ?m _] => destruct m end; cbn [bind] in Hent; [|discriminate Hent]). injection Hent as <-. exact R6. }
      rewrite Hres in H2. cbn [orb] in H2. assert (selected o only (f_name (c_func c))) as Hsel by now apply ignore_selected.
      assert (c_number c' = c_number c) as Hnum by now apply enter_number in Hent.
      destruct (s_enter o).
      + apply show_ok in H2 as (c2 & t & line & Hs & _ & _ & Hlog & _ & Hst). rewrite Hst, Hs1, Hlog, Hl1. cbn [ss_exit ss_name ss_syscall]. split; [reflexivity|]. split; [reflexivity|].
        split; [|intros Hc; contradiction]. intros _. exists c2. destruct Hs as (S1 & S2 & _). split; [reflexivity|]. split; [congruence|]. split; [congruence|]. now exists line.
      + injection H2 as <-. rewrite Hs1, Hl1. cbn [ss_exit ss_name ss_syscall]. split; [reflexivity|]. split; [reflexivity|].
        split; [|intros Hc; contradiction]. intros _. exists c'. auto.
  Qed.
  (** Exit *)
  Lemma stop_exit f id st st' : handle_syscall f id st = (st', Ret tt) -> ss_exit (state_of st id) = true ->
    state_of st' id = cleared /\
    match ss_syscall (state_of st id) with
    | None => t_log st' = t_log st
    | Some c => exists result c' c'' t line, st_result (the_stop stops st id) = Ok result /\ exit_ p errorcode strerror (Ok result) c = Ok (c', t) /\
        shown c' c'' /\ c_number c'' = c_number c /\ c_result c'' <> None /\ t_log st' = LSyscall id c'' line :: t_log st
    end.
  Proof.
    intros H Hx. unfold StraceModel.handle_syscall in H. apply tbind_ok in H as (st1 & r & H1 & H). apply tbind_ok in H as (st2 & [] & H2 & H).
    apply proc_syscall_ok in H as (q & _ & _ & _ & P1 & _ & P3). unfold state_of at 1. rewrite P1, P3. fold (state_of st2 id).
    apply state_event_ok in H1 as (s & d & He & H1). apply exit_step in He as (-> & Hc & _); [|exact Hx].
    assert (state_of st1 id = cleared) as Hs1. { subst st1. unfold state_of. cbn [t_sys]. now rewrite (dget_dset_same Nat.eqb Nat.eqb_eq). }
    assert (t_log st1 = t_log st) as Hl1 by (subst st1; reflexivity).
    destruct (ss_syscall (state_of st id)) as [c|], r as [c'|]; try contradiction.
    - destruct Hc as (t & Ht). pose proof Ht as Ht0. apply exit_same in Ht as [Hsame Hres]. destruct (st_result (the_stop stops st id)) as [result|e] eqn:Er; [|discriminate Ht0].
      destruct (c_result c') as [v|] eqn:Ev; [|congruence]. cbn [orb] in H2. apply show_ok in H2 as (c2 & t2 & line & Hs & _ & _ & Hlog & _ & Hst). rewrite Hst, Hs1, Hlog, Hl1. cbn [ss_syscall cleared].
      split; [reflexivity|]. exists result, c', c2, t, line. split; [reflexivity|]. split; [exact Ht0|]. split; [exact Hs|]. destruct Hs as (S1 & S2 & _). destruct Hsame as (Q1 & _).
      split; [congruence|]. split; [congruence|reflexivity].
    - injection H2 as <-. rewrite Hs1, Hl1. auto.
  Qed.
  (** The end of a process *)
  Lemma exit_shows id s c st st' : handle_exit id s c st = (st', Ret tt) ->
    match ss_syscall (state_of st id) with
    | Some call => if ss_exit (state_of st id) && negb (s_enter o)
                   then exists call' line, shown call call' /\ t_log st' = LLine (T "*** " ++ exit_message ns (pid_of st id) s c ++ T " ***") :: LSyscall id call' line :: t_log st
                   else t_log st' = LLine (T "*** " ++ exit_message ns (pid_of st id) s c ++ T " ***") :: t_log st
    | None => t_log st' = LLine (T "*** " ++ exit_message ns (pid_of st id) s c ++ T " ***") :: t_log st
    end.
  Proof.
    intros H. unfold StraceModel.handle_exit in H. apply tbind_ok in H as (st0 & s0 & H0 & H). injection H0 as <- <-. apply tbind_ok in H as (st1 & [] & H1 & H). unfold tlog in H. apply (f_equal fst) in H. cbn [fst] in H. subst st'. cbn [t_log].
    destruct (ss_syscall (state_of st id)) as [c0|]; [|now injection H1 as <-]. destruct (_ && _); [|now injection H1 as <-].
    apply show_ok in H1 as (c1 & t & line & Hs & _ & _ & Hlog & _). exists c1, line. split; [exact Hs|]. now rewrite Hlog.
  Qed.

  (** *** The end of the program *)
  Lemma main_ends rounds f st st1 r : runDebugger rounds f st = (st1, r) ->
    (exists e, r = Raise (XErr e) /\ not_exception e = true /\ strace_main rounds f st = (st1, Raise (XErr e))) \/
    (exists id s c st2 x, r = Raise (XEvent (ProcessExit id s c)) /\ handle_exit id s c st1 = (st2, Raise x) /\ strace_main rounds f st = (st2, Raise x)) \/
    (exists st2, t_dbg st2 = t_dbg st1 /\ fst (strace_main rounds f st) = fst (tdbg (quit K p f) st2) /\
       match snd (tdbg (quit K p f) st2) with
       | Ret _ => snd (strace_main rounds f st) = Ret (match r with Ret code => code | Raise x => Some (failure_code x) end)
       | Raise x => snd (strace_main rounds f st) = Raise x
       end).
  Proof.
    intros H. unfold StraceModel.strace_main, main_of. set (h := fun x : dexn => _). 
    assert (forall st2 code, ttry (runDebugger rounds f) h st = (st2, Ret code) -> t_dbg st2 = t_dbg st1 -> code = (match r with Ret code => code | Raise x => Some (failure_code x) end) ->
      exists st2, t_dbg st2 = t_dbg st1 /\ fst (tbind (ttry (runDebugger rounds f) h) (fun code => tbind (tdbg (quit K p f)) (fun _ => tret code)) st) = fst (tdbg (quit K p f) st2) /\
       match snd (tdbg (quit K p f) st2) with
       | Ret _ => snd (tbind (ttry (runDebugger rounds f) h) (fun code => tbind (tdbg (quit K p f)) (fun _ => tret code)) st) = Ret (match r with Ret code => code | Raise x => Some (failure_code x) end)
       | Raise x => snd (tbind (ttry (runDebugger rounds f) h) (fun code => tbind (tdbg (quit K p f)) (fun _ => tret code)) st) = Raise x
       end) as Hq.
    { intros st2 code E Hd Hcode. exists st2. split; [exact Hd|]. unfold tbind. rewrite E. destruct (tdbg (quit K p f) st2) as [st3 [u|x]]; cbn; [now rewrite Hcode|auto]. }
    unfold ttry in *. rewrite H in *. destruct r as [code|[e|ev]].
    - right. right. eapply Hq; reflexivity.
    - destruct (ptrace_errno e) as [n|] eqn:En.
      + right. right. eapply Hq; [unfold h; rewrite En; reflexivity|reflexivity|]. unfold failure_code. rewrite En. now destruct n.
      + destruct (not_exception e) eqn:Ee.
        * left. exists e. split; [reflexivity|]. split; [exact Ee|]. unfold tbind, h. rewrite H, En. destruct e; try discriminate Ee; reflexivity.
        * right. right. destruct e; try discriminate Ee; try discriminate En; (eapply Hq; [unfold h; rewrite En; reflexivity|reflexivity|reflexivity]).
    - destruct ev as [id s c|id|id|s id]; try (right; right; eapply Hq; reflexivity).
      destruct (handle_exit id s c st1) as [st2 [u|x]] eqn:Ex.
      + right. right. destruct u. pose proof (exit_dbg p ns repr_fs stops o id s c st1 st2 Ex) as Hd. eapply Hq; [unfold h; unfold tbind; rewrite Ex; reflexivity|exact Hd|]. cbn. now destruct c.
      + right. left. exists id, s, c, st2, x. split; [reflexivity|]. split; [exact Ex|]. unfold tbind, h, tbind. now rewrite H, Ex.
  Qed.

  (** The registry of the debugger stays consistent *)
  Definition inv_kept (a b : tstate) : Prop := reg_inv (t_dbg a) -> reg_inv (t_dbg b).
  Lemma inv_refl a : inv_kept a a. Proof. unfold inv_kept. auto. Qed.
  Lemma inv_trans a b c : inv_kept a b -> inv_kept b c -> inv_kept a c. Proof. unfold inv_kept. auto. Qed.
  Ltac frame := repeat (first [ solve [auto] | apply tkeeps_bind; [exact inv_trans| |intros] | apply tkeeps_ret; exact inv_refl | apply tkeeps_throw; exact inv_refl | apply tkeeps_get; exact inv_refl
    | apply tkeeps_res; exact inv_refl | apply tkeeps_try; [exact inv_trans| |intros] | match goal with |- tkeeps _ (match ?b with _ => _ end) => destruct b end ]).
  Lemma inv_dbg {A} (m : D A) : within anything m -> tkeeps inv_kept (tdbg m).
  Proof. intros Hm st H. unfold tdbg. specialize (Hm (t_dbg st)). destruct (m (t_dbg st)) as [d r]. cbn in *. eapply ticks_inv; eassumption. Qed.
  Lemma inv_opts {A} (m : D A) : (forall d, d_procs (fst (m d)) = d_procs d /\ d_dict (fst (m d)) = d_dict d /\ d_list (fst (m d)) = d_list d /\ d_calls (fst (m d)) = d_calls d) -> tkeeps inv_kept (tdbg m).
  Proof. intros Hm st H. unfold tdbg. specialize (Hm (t_dbg st)). destruct (m (t_dbg st)) as [d r]. cbn in *. destruct Hm as (H1 & H2 & H3 & H4). eapply inv_same; eassumption. Qed.
  Lemma within_any_syscall id s : within anything (syscall K p id s).
  Proof.
    apply within_bind; [apply within_proc|]. intros q. destruct (running_openbsd p); [apply within_raise|].
    apply within_bind; [apply within_any_request; [intros; apply filter_ok|discriminate]|]. intros _ s1. apply ticks_one. constructor.
  Qed.
  Lemma inv_log l : tkeeps inv_kept (tlog l). Proof. intros st H. exact H. Qed.
  Lemma inv_ready id : tkeeps inv_kept (set_ready id). Proof. intros st H. exact H. Qed.
  Lemma inv_see b ev : tkeeps inv_kept (tsee b ev). Proof. intros st H. exact H. Qed.
  Lemma inv_keep id c : tkeeps inv_kept (keep_call id c). Proof. intros st H. unfold keep_call. destruct (ss_syscall _); exact H. Qed.
  Lemma inv_syscall id s : tkeeps inv_kept (proc_syscall p K id s). Proof. apply inv_dbg, within_any_syscall. Qed.
  Lemma inv_get_proc id : tkeeps inv_kept (tdbg (get_proc id)). Proof. apply inv_dbg, within_proc. Qed.
  Lemma inv_state f id : tkeeps inv_kept (state_event f id).
  Proof.
    intros st. unfold StraceModel.state_event, inv_kept. destruct (ss_event _ _ _ _ _ _ _ _ _ _ _ _ _) as [[s d] r] eqn:E. cbn [fst t_dbg set_sys set_dbg]. intros H. eapply ticks_inv; [|exact H].
    assert (within anything (skip_exec_trap p K f id)) as Hk.
    { unfold skip_exec_trap. apply within_bind; [apply within_any_syscall|]. intros _. apply within_bind; [apply within_proc|]. intros q. apply within_bind; [apply within_any_signals|]. intros _. apply within_ret. }
    specialize (Hk (t_dbg st)). unfold ss_event, sbind at 1, sget at 1 in E. cbn [fst] in E. destruct (ss_exit (state_of st id)).
    - unfold ss_exit_, sbind, slift, sput, sget, sret, sdbg, dget_state in E. cbn [fst snd] in E. destruct (ss_syscall (state_of st id)) as [c|]; cbn [fst snd] in E.
      + destruct (exit_ p errorcode strerror _ c) as [[c' t]|e]; cbn [fst snd ss_name ss_syscall] in E; [|injection E as _ <- _; constructor].
        destruct (_ && _ && _); cbn [fst snd] in E; [|injection E as _ <- _; constructor].
        destruct (skip_exec_trap p K f id (t_dbg st)) as [d2 [[]|x]]; cbn in E; injection E as _ <- _; exact Hk.
      + destruct (_ && _ && _); cbn [fst snd] in E; [|injection E as _ <- _; constructor].
        destruct (skip_exec_trap p K f id (t_dbg st)) as [d2 [[]|x]]; cbn in E; injection E as _ <- _; exact Hk.
    - unfold ss_enter, sbind, slift, sput, sget, sret in E. cbn [fst snd] in E. destruct (st_regs _) as [regs|e]; [|injection E as _ <- _; constructor].
      destruct (new_syscall p regs) as [c|e]; [|injection E as _ <- _; constructor]. cbn [fst snd ss_name ss_exit ss_syscall] in E.
      match type of E with context [if ?b then _ else _] => destruct b end; cbn [negb fst snd ss_name ss_exit ss_syscall] in E; [|injection E as _ <- _; constructor].
      destruct (enter _ _ _ _ _ _ _ _) as [c'|e]; cbn [fst snd ss_name ss_exit ss_syscall] in E; injection E as _ <- _; constructor.
  Qed.
  Hint Resolve inv_log inv_ready inv_see inv_keep inv_syscall inv_get_proc inv_state : core.
  Lemma inv_display id c : tkeeps inv_kept (displaySyscall id c). Proof. unfold StraceModel.displaySyscall. frame. Qed.
  Hint Resolve inv_display : core.
  Lemma inv_exit id s c : tkeeps inv_kept (handle_exit id s c). Proof. unfold StraceModel.handle_exit. frame. Qed.
  Lemma inv_new id : tkeeps inv_kept (handle_new p K id). Proof. unfold handle_new, prepareProcess. frame. Qed.
  Lemma inv_handle_syscall f id : tkeeps inv_kept (handle_syscall f id). Proof. unfold StraceModel.handle_syscall. frame. Qed.
  Lemma inv_display_request id s : tkeeps inv_kept (tdbg (request K (KDisplay id s))). Proof. apply inv_dbg, within_any_request; [easy|discriminate]. Qed.
  Hint Resolve inv_exit inv_new inv_handle_syscall inv_display_request : core.
  Lemma inv_event f code raised ev : tkeeps inv_kept (handle_event p ns repr_fs errorcode strerror K stops o only f code raised ev).
  Proof. unfold handle_event, handle_execution. frame. Qed.
  Hint Resolve inv_event : core.
  Lemma inv_round f code : tkeeps inv_kept (round p ns repr_fs errorcode strerror K stops o only f code).
  Proof.
    unfold round. apply tkeeps_bind; [exact inv_trans| |intros; frame]. intros st. assert (tkeeps inv_kept (tdbg (waitSyscall K p f None))) as Hw.
    { apply inv_dbg. intros d. rewrite waitSyscall_eq. apply within_any_signals. }
    specialize (Hw st). destruct (tdbg (waitSyscall K p f None) st) as [s [ev|[e|ev]]]; exact Hw.
  Qed.
  Hint Resolve inv_round : core.
  Lemma inv_loop rounds f : forall code, tkeeps inv_kept (trace_loop p ns repr_fs errorcode strerror K stops o only rounds f code).
  Proof. induction rounds as [|rounds IH]; intros code; cbn [trace_loop]; frame. Qed.
  Lemma inv_setup : tkeeps inv_kept (setupDebugger p o).
  Proof.
    unfold setupDebugger. apply tkeeps_bind; [exact inv_trans| |intros; apply tkeeps_bind; [exact inv_trans| |intros]].
    - destruct (s_fork o); [|frame]. apply tkeeps_try; [exact inv_trans| |intros; frame]. apply inv_opts. intros d. unfold traceFork. destruct (negb _); auto.
    - destruct (s_trace_exec o); [|frame]. apply inv_opts. intros d. unfold traceExec. destruct (negb _); auto.
    - destruct (s_trace_clone o); [|frame]. apply inv_opts. intros d. unfold traceClone. destruct (negb _); auto.
  Qed.
  Lemma inv_add f pid a par th : tkeeps inv_kept (tdbg (addProcess K p f pid a par th)). Proof. apply inv_dbg, within_any_add. Qed.
  Hint Resolve inv_loop inv_setup inv_add : core.
  Lemma inv_run rounds f : tkeeps inv_kept (runDebugger rounds f).
  Proof. unfold StraceModel.runDebugger, createProcess, createChild, syscallTrace, prepareProcess. frame. Qed.
  Lemma start_inv : reg_inv (t_dbg (start p)).
  Proof. apply (reachable_inv K p). exists []. split; reflexivity. Qed.
  Lemma run_registry rounds f st1 r : runDebugger rounds f (start p) = (st1, r) -> registry_ok (t_dbg st1).
  Proof. intros H. apply reg_ok. pose proof (inv_run rounds f (start p)) as Hi. rewrite H in Hi. apply Hi, start_inv. Qed.
  Lemma run_quit rounds f st1 r : running_linux p = true -> runDebugger rounds f (start p) = (st1, r) ->
    exists new, made (t_dbg st1) (fst (quit K p f (t_dbg st1))) new /\ forall c i, In c new -> signals_to i c = true -> registered (t_dbg st1) i /\ started (t_dbg st1) i.
  Proof. intros Hl H. apply quit_calls; [exact Hl|]. eapply run_registry; exact H. Qed.
  Lemma run_clears rounds f st1 r d' : runDebugger rounds f (start p) = (st1, r) -> clean (t_dbg st1) -> quit K p f (t_dbg st1) = (d', Ret tt) ->
    forall id, registered (t_dbg st1) id -> ~ registered d' id.
  Proof.
    intros H Hc Hq id Hid. pose proof (inv_run rounds f (start p)) as Hi. rewrite H in Hi. specialize (Hi start_inv). cbn [fst] in Hi.
    unfold quit, dbind, dget_state in Hq.
    eapply (quit_loop_clears K p f (rev (d_list (t_dbg st1)))); [split; eauto| |exact Hq|apply in_rev in Hid; exact Hid].
    intros i Hi'. apply in_rev in Hi'. destruct (Hc i Hi') as (q & Eq & _). congruence.
  Qed.
  (** The result of runDebugger() *)
  Ltac sframe := repeat (first [ apply tkeeps_bind; [exact same_seen_trans| |intros] | apply tkeeps_ret; exact same_seen_refl | apply tkeeps_throw; exact same_seen_refl | apply tkeeps_get; exact same_seen_refl
    | apply tkeeps_res; exact same_seen_refl | apply tkeeps_try; [exact same_seen_trans| |intros] | apply seen_dbg | apply seen_log | match goal with |- tkeeps _ (match ?b with _ => _ end) => destruct b end ]).
  Lemma tkeeps_seen_setup : tkeeps same_seen (setupDebugger p o). Proof. unfold setupDebugger. sframe. Qed.
  Lemma tkeeps_seen_create f : tkeeps same_seen (createProcess p K o child f). Proof. unfold createProcess, createChild. sframe. Qed.
  Lemma run_code rounds f st st1 code : runDebugger rounds f st = (st1, Ret code) -> t_seen st = [] -> code = None /\ t_seen st1 = [] \/ code = Some (last_code (t_seen st1)).
  Proof.
    unfold StraceModel.runDebugger. intros H Hs. apply tbind_ok in H as (sa & u & Ha & H). apply tbind_ok in H as (sb & r & Hb & H).
    assert (t_seen sa = t_seen st) as E1. { pose proof (tkeeps_seen_setup st) as Hk. rewrite Ha in Hk. exact Hk. }
    assert (t_seen sb = t_seen sa) as E2. { pose proof (tkeeps_seen_create f sa) as Hk. rewrite Hb in Hk. exact Hk. }
    destruct r as [id|]; [|injection H as <- <-; left; split; congruence].
    apply tbind_ok in H as (sc & c & Hc & H). injection H as <- <-. right. f_equal. eapply trace_code; [exact Hc|congruence].
  Qed.
  Lemma main_code rounds f st1 code st2 code' : runDebugger rounds f (start p) = (st1, Ret code) -> strace_main rounds f (start p) = (st2, Ret code') -> exit_status (Ret code') = last_code (t_seen st1) mod 256.
  Proof.
    intros H1 H2. destruct (main_ends rounds f _ _ _ H1) as [(e & E & _)|[(id & s & c & s2 & x & E & _)|(s2 & _ & _ & H)]]; [discriminate E|discriminate E|].
    rewrite H2 in H. cbn [snd] in H. destruct (snd (tdbg (quit K p f) s2)); [|discriminate H]. injection H as ->.
    destruct (run_code _ _ _ _ _ H1 eq_refl) as [[-> ->]| ->]; reflexivity.
  Qed.
  Lemma main_exit rounds f st1 code st2 code' id s c rest : runDebugger rounds f (start p) = (st1, Ret code) -> strace_main rounds f (start p) = (st2, Ret code') ->
    t_seen st1 = (true, ProcessExit id s (Some c)) :: rest -> 0 <= c < 256 -> exit_status (Ret code') = c.
  Proof. intros H1 H2 Hs Hc. rewrite (main_code _ _ _ _ _ _ H1 H2), Hs. cbn [last_code]. now apply Z.mod_small. Qed.
  Lemma main_signal rounds f st1 code st2 code' id n i rest : runDebugger rounds f (start p) = (st1, Ret code) -> strace_main rounds f (start p) = (st2, Ret code') ->
    t_seen st1 = (true, ProcessExit id (Some n) None) :: (true, ProcessSignal n i) :: rest -> 0 <= n < 128 -> exit_status (Ret code') = 128 + n.
  Proof. intros H1 H2 Hs Hc. rewrite (main_code _ _ _ _ _ _ H1 H2), Hs. cbn [last_code]. apply Z.mod_small. lia. Qed.
  Lemma main_failure rounds f st1 x st2 code' : runDebugger rounds f (start p) = (st1, Raise x) -> strace_main rounds f (start p) = (st2, Ret code') -> code' = Some (failure_code x).
  Proof.
    intros H1 H2. destruct (main_ends rounds f _ _ _ H1) as [(e & E & _ & H)|[(id & s & c & s2 & y & E & _ & H)|(s2 & _ & _ & H)]]; rewrite H2 in H; [discriminate H|discriminate H|].
    cbn [snd] in H. destruct (snd (tdbg (quit K p f) s2)); [|discriminate H]. injection H as ->. reflexivity.
  Qed.
End Facts.
