From Coq Require Import ZArith List Ascii String Bool Lia Arith.
From Verif Require Import PyBase PyFacts PyInt PyIntFacts Platform IntModel IntProofs ToolsModel SigModel DbgModel MapModel TraceModel PyEval ExprModel GdbModel GdbSpec GdbProofs GdbProofs2.
Import ListNotations.
Open Scope Z_scope.

(** ** switch *)
Lemma rest_refl st : rest_same st st.
Proof. repeat split. Qed.
Lemma rest_trans a b c : rest_same a b -> rest_same b c -> rest_same a c.
Proof. intros (H1 & H2 & H3) (K1 & K2 & K3). repeat split; congruence. Qed.
Lemma switchProcess_run id st : exists st', switchProcess id st = (st', Ret tt) /\ g_process st' = id /\ rest_same st st'.
Proof.
  unfold switchProcess, gbind, gget. destruct (Nat.eqb_spec (g_process st) id) as [E|E].
  - exists st. split; [reflexivity|]. split; [exact E|apply rest_refl].
  - eexists. split; [reflexivity|]. split; [reflexivity|repeat split].
Qed.
Lemma index_of_nth l : forall i x, NoDup l -> nth_error l i = Some x -> index_of x l = Some i.
Proof.
  induction l as [|y l IH]; intros i x Hn H; [destruct i; discriminate|]. inversion Hn as [|? ? Hy Hn']; subst. cbn [index_of]. destruct i as [|i]; cbn in H.
  - injection H as ->. now rewrite Nat.eqb_refl.
  - destruct (Nat.eqb_spec x y) as [->|]; [exfalso; apply Hy; eapply nth_error_In; exact H|]. now rewrite (IH i x).
Qed.
Lemma index_of_none x l : ~ In x l -> index_of x l = None.
Proof. induction l as [|y l IH]; intros H; [reflexivity|]. cbn [index_of]. destruct (Nat.eqb_spec x y) as [->|]; [exfalso; apply H; now left|]. rewrite IH; [reflexivity|]. intros Hl. apply H. now right. Qed.
Section Switch.
  Context (p : platform) (ns : namespace) (eval : text -> res pyval) (env : list (gcall * ans) -> gcall -> ans).
  Lemma procs_run st l : env (g_hist st) CProcesses = AProcs l -> ask_procs env CProcesses st = (push CProcesses (AProcs l) st, Ret l).
  Proof. intros H. unfold ask_procs, gbind, ask. rewrite H. reflexivity. Qed.
  Lemma switch_next st l i : env (g_hist st) CProcesses = AProcs l -> NoDup l -> nth_error l i = Some (g_process st) -> (2 <= List.length l)%nat ->
    exists st', switch p eval env [] st = (st', Ret None) /\ nth_error l ((i + 1) mod List.length l) = Some (g_process st') /\ rest_same st st'.
  Proof.
    intros He Hn Hi Hl. unfold switch. unfold gbind at 1. rewrite (procs_run st l He). destruct (Nat.eqb_spec (List.length l) 1); [lia|]. unfold gbind at 1, gget. cbn [push g_process].
    rewrite (index_of_nth l i _ Hn Hi). replace (S i) with (i + 1)%nat by lia. destruct (nth_error l ((i + 1) mod List.length l)) as [id|] eqn:E.
    - destruct (switchProcess_run id (push CProcesses (AProcs l) st)) as (st' & H1 & H2 & H3). unfold gbind. rewrite H1. exists st'. split; [reflexivity|]. split; [congruence|exact H3].
    - exfalso. apply nth_error_None in E. pose proof (Nat.mod_upper_bound (i + 1) (List.length l)). lia.
  Qed.
  Notation switches := (switches p eval env).
  Lemma switch_cycle l n : NoDup l -> (2 <= List.length l)%nat -> (forall h, env h CProcesses = AProcs l) -> forall st i, nth_error l i = Some (g_process st) ->
    exists st', switches n st = (st', Ret None) /\ nth_error l ((i + n) mod List.length l) = Some (g_process st') /\ rest_same st st'.
  Proof.
    intros Hn Hl He. induction n as [|n IH]; intros st i Hi.
    - exists st. split; [reflexivity|]. split; [|apply rest_refl]. rewrite Nat.add_0_r, Nat.mod_small; [exact Hi|]. apply nth_error_Some. congruence.
    - destruct (switch_next st l i (He _) Hn Hi Hl) as (st1 & H1 & H2 & H3). destruct (IH st1 _ H2) as (st' & K1 & K2 & K3). exists st'. cbn [GdbSpec.switches]. unfold gbind. rewrite H1. split; [exact K1|]. split; [|eapply rest_trans; eassumption].
      rewrite Nat.add_mod_idemp_l in K2 by lia. replace (i + S n)%nat with (i + 1 + n)%nat by lia. exact K2.
  Qed.
  Lemma switch_all l : NoDup l -> (2 <= List.length l)%nat -> (forall h, env h CProcesses = AProcs l) -> forall st q, In (g_process st) l -> In q l ->
    exists n st', (n < List.length l)%nat /\ switches n st = (st', Ret None) /\ g_process st' = q.
  Proof.
    intros Hn Hl He st q H1 H2. apply In_nth_error in H1 as (i & Hi). apply In_nth_error in H2 as (j & Hj). assert (i < List.length l)%nat as Hi' by (apply nth_error_Some; congruence). assert (j < List.length l)%nat as Hj' by (apply nth_error_Some; congruence).
    set (n := ((j + List.length l - i) mod List.length l)%nat). destruct (switch_cycle l n Hn Hl He st i Hi) as (st' & K1 & K2 & _). exists n, st'. split; [apply Nat.mod_upper_bound; lia|]. split; [exact K1|].
    unfold n in K2. rewrite Nat.add_mod_idemp_r in K2 by lia. replace (i + (j + List.length l - i))%nat with (j + 1 * List.length l)%nat in K2 by lia. rewrite Nat.mod_add in K2 by lia. rewrite Nat.mod_small in K2 by lia. congruence.
  Qed.
  Lemma switch_single st q : env (g_hist st) CProcesses = AProcs [q] -> exists m, switch p eval env [] st = (push CProcesses (AProcs [q]) st, Ret (Some m)).
  Proof. intros He. unfold switch. unfold gbind at 1. rewrite (procs_run st [q] He). eexists. reflexivity. Qed.
  Lemma switch_lost st l : env (g_hist st) CProcesses = AProcs l -> (List.length l <> 1)%nat -> ~ In (g_process st) l -> switch p eval env [] st = (push CProcesses (AProcs l) st, Raise (XErr EValueError)).
  Proof.
    intros He Hl Hi. unfold switch. unfold gbind at 1. rewrite (procs_run st l He). destruct (Nat.eqb_spec (List.length l) 1); [lia|]. unfold gbind at 1, gget. cbn [push g_process]. now rewrite index_of_none.
  Qed.
  Lemma switch_pid st c t pid o : parse p eval env st (c :: t) = Ok pid -> env (g_hist st) (CLookup pid) = AObj o ->
    exists st' m, switch p eval env (c :: t) st = (st', Ret m) /\ rest_same st st' /\
      match o with Some id => g_process st' = id /\ m = None | None => g_process st' = g_process st /\ m <> None end.
  Proof.
    intros Hp He. unfold switch. erewrite or_message_ok by (rewrite parse_run, Hp; reflexivity). unfold gbind at 1, ask_obj, gbind at 1, ask. rewrite He. cbn [gret]. destruct o as [id|].
    - destruct (switchProcess_run id (push (CLookup pid) (AObj (Some id)) st)) as (st' & H1 & H2 & H3). unfold gbind. rewrite H1. exists st', None. auto.
    - eexists _, _. split; [reflexivity|]. split; [repeat split|]. split; [reflexivity|discriminate].
  Qed.
End Switch.

(** ** Signals *)
Lemma ddel_NoDup {V} k (d : list (nat * V)) : NoDup (map fst d) -> NoDup (map fst (ddel Nat.eqb k d)).
Proof.
  induction d as [|[k' v] d IH]; intros H; [constructor|]. cbn [ddel]. inversion H; subst. destruct (Nat.eqb k k'); [assumption|]. cbn [map fst]. constructor; [|now apply IH].
  rewrite ddel_keys_In by (try apply Nat.eqb_eq; assumption). tauto.
Qed.
Definition quiet (c : gcall) : Prop := match c with CLog (LInterrupted _ _) => False | CCont _ s => s = 0 | _ => True end.
Section Keeps.
Context (w : gstate -> Prop).
Hypothesis (w_push : forall st c a, quiet c -> w st -> w (push c a st)).
Definition keeps {A} (m : GM A) : Prop := forall st, w st -> w (fst (m st)).
Lemma keeps_ret {A} (a : A) : keeps (gret a).
Proof. intros st H. exact H. Qed.
Lemma keeps_raise {A} x : keeps (@graise A x).
Proof. intros st H. exact H. Qed.
Lemma keeps_get : keeps gget.
Proof. intros st H. exact H. Qed.
Lemma keeps_bind {A B} (m : GM A) (f : A -> GM B) : keeps m -> (forall a, keeps (f a)) -> keeps (gbind m f).
Proof. intros Hm Hf st H. unfold gbind. specialize (Hm st H). destruct (m st) as [st1 [a|x]]; [apply Hf; exact Hm|exact Hm]. Qed.
Lemma keeps_try {A} (m : GM A) h : keeps m -> (forall x, keeps (h x)) -> keeps (gtry m h).
Proof. intros Hm Hf st H. unfold gtry. specialize (Hm st H). destruct (m st) as [st1 [a|x]]; [exact Hm|apply Hf; exact Hm]. Qed.
Lemma keeps_iter {A} (f : A -> GM unit) l : (forall a, keeps (f a)) -> keeps (giter f l).
Proof. intros Hf. induction l as [|x l IH]; [apply keeps_ret|]. cbn [giter]. apply keeps_bind; [apply Hf|intros _; exact IH]. Qed.
Lemma keeps_or {A} (m : GM A) f : keeps m -> (forall a, keeps (f a)) -> keeps (or_message m f).
Proof.
  intros Hm Hf. unfold or_message. apply keeps_bind.
  - apply keeps_try; [apply keeps_bind; [exact Hm|intros; apply keeps_ret]|]. intros [[]|]; first [apply keeps_ret|apply keeps_raise].
  - intros [a|e]; [apply Hf|apply keeps_ret].
Qed.
Lemma keeps_modify f : (forall st, w st -> w (f st)) -> keeps (gmodify f).
Proof. intros Hf st H. cbn. apply Hf, H. Qed.
Lemma keeps_log l : quiet (CLog l) -> keeps (glog l).
Proof. intros Hq st H. cbn [glog fst]. now apply w_push. Qed.
  Context (p : platform) (ns : namespace) (dis : bool) (eval : text -> res pyval) (env : list (gcall * ans) -> gcall -> ans).
  Hypothesis (w_process : forall st id, w st -> w (set_process id st)).
  Hypothesis (w_follow : forall st f, w st -> w (set_follow f st)).
  Hypothesis (w_signal : forall s id st, w st -> w (push (CLog (LInterrupted id s)) AUnit (set_last (dset Nat.eqb id s (g_last st)) st))).
  Hypothesis (w_continue : forall id s, keeps (continueProcess env id s)).
  Lemma keeps_ask c : quiet c -> keeps (ask env c).
  Proof. intros Hq st H. unfold ask. cbn [fst]. now apply w_push. Qed.
  Lemma keeps_unit c : quiet c -> keeps (ask_unit env c).
  Proof. intros Hq. apply keeps_bind; [now apply keeps_ask|]. intros []; first [apply keeps_ret|apply keeps_raise]. Qed.
  Lemma keeps_bool c : quiet c -> keeps (ask_bool env c).
  Proof. intros Hq. apply keeps_bind; [now apply keeps_ask|]. intros []; first [apply keeps_ret|apply keeps_raise]. Qed.
  Lemma keeps_int c : quiet c -> keeps (ask_int env c).
  Proof. intros Hq. apply keeps_bind; [now apply keeps_ask|]. intros []; first [apply keeps_ret|apply keeps_raise]. Qed.
  Lemma keeps_bytes c : quiet c -> keeps (ask_bytes env c).
  Proof. intros Hq. apply keeps_bind; [now apply keeps_ask|]. intros []; first [apply keeps_ret|apply keeps_raise]. Qed.
  Lemma keeps_procs c : quiet c -> keeps (ask_procs env c).
  Proof. intros Hq. apply keeps_bind; [now apply keeps_ask|]. intros []; first [apply keeps_ret|apply keeps_raise]. Qed.
  Lemma keeps_obj c : quiet c -> keeps (ask_obj env c).
  Proof. intros Hq. apply keeps_bind; [now apply keeps_ask|]. intros []; first [apply keeps_ret|apply keeps_raise]. Qed.
  Lemma keeps_new c : quiet c -> keeps (ask_new env c).
  Proof. intros Hq. apply keeps_bind; [now apply keeps_ask|]. intros []; try destruct o; first [apply keeps_ret|apply keeps_raise]. Qed.
  Lemma keeps_event c : quiet c -> keeps (ask_event env c).
  Proof. intros Hq. apply keeps_bind; [now apply keeps_ask|]. intros []; first [apply keeps_ret|apply keeps_raise]. Qed.
  Lemma keeps_maps c : quiet c -> keeps (ask_maps env c).
  Proof. intros Hq. apply keeps_bind; [now apply keeps_ask|]. intros []; first [apply keeps_ret|apply keeps_raise]. Qed.
  Lemma keeps_lift {A} (r : res A) : keeps (glift r).
  Proof. destruct r; [apply keeps_ret|apply keeps_raise]. Qed.
  Lemma keeps_parse t : keeps (g_parseInteger p eval env t).
  Proof. apply keeps_bind; [apply keeps_get|intros; apply keeps_lift]. Qed.
  Lemma keeps_parses t : keeps (g_parseIntegers p eval env t).
  Proof. apply keeps_bind; [apply keeps_get|intros; apply keeps_lift]. Qed.
  Ltac kstep :=
    match goal with
    | |- keeps (gbind _ _) => apply keeps_bind; [|intros]
    | |- keeps (gret _) => apply keeps_ret
    | |- keeps (graise _) => apply keeps_raise
    | |- keeps ill => apply keeps_raise
    | |- keeps gget => apply keeps_get
    | |- keeps (gtry _ _) => apply keeps_try; [|intros]
    | |- keeps (giter _ _) => apply keeps_iter; intros
    | |- keeps (or_message _ _) => apply keeps_or; [|intros]
    | |- keeps (glog _) => apply keeps_log; exact I
    | |- keeps (ask _ _) => apply keeps_ask; first [exact I|reflexivity]
    | |- keeps (ask_unit _ _) => apply keeps_unit; first [exact I|reflexivity]
    | |- keeps (ask_bool _ _) => apply keeps_bool; exact I
    | |- keeps (ask_int _ _) => apply keeps_int; exact I
    | |- keeps (ask_bytes _ _) => apply keeps_bytes; exact I
    | |- keeps (ask_procs _ _) => apply keeps_procs; exact I
    | |- keeps (ask_obj _ _) => apply keeps_obj; exact I
    | |- keeps (ask_new _ _) => apply keeps_new; exact I
    | |- keeps (ask_event _ _) => apply keeps_event; exact I
    | |- keeps (ask_maps _ _) => apply keeps_maps; exact I
    | |- keeps (glift _) => apply keeps_lift
    | |- keeps (g_parseInteger _ _ _ _) => apply keeps_parse
    | |- keeps (g_parseIntegers _ _ _ _) => apply keeps_parses
    | |- keeps (gmodify _) => apply keeps_modify; intros; first [now apply w_process|now apply w_follow]
    | |- keeps (match ?x with _ => _ end) => destruct x
    | |- keeps (let '(_, _) := ?x in _) => destruct x
    | |- keeps (if ?x then _ else _) => destruct x
    end.
  Lemma keeps_switchProcess id : keeps (switchProcess id).
  Proof. unfold switchProcess. repeat kstep. Qed.
  Lemma keeps_nextProcess : keeps (nextProcess env).
  Proof. unfold nextProcess. repeat first [apply keeps_switchProcess|kstep]. Qed.
  Lemma keeps_switch t : keeps (switch p eval env t).
  Proof. unfold switch. repeat first [apply keeps_switchProcess|kstep]. Qed.
  Lemma keeps_processSignal s id : keeps (processSignal env s id).
  Proof.
    unfold processSignal. kstep; [kstep|]. kstep; [apply keeps_switchProcess|]. intros st H. cbn. now apply w_signal.
  Qed.
  Lemma keeps_cont s : keeps (gdb_cont p env s).
  Proof. unfold gdb_cont, cont_loop. repeat first [apply w_continue|apply keeps_processSignal|kstep]. Qed.
  Lemma keeps_signal t : (forall st id, w st -> w (del_last id st)) -> keeps (gdb_signal p ns eval env t).
  Proof. intros Hw. unfold gdb_signal, parseSignum. repeat first [apply keeps_cont|apply keeps_modify; intros; now apply Hw|kstep]. Qed.
  Lemma keeps_ptrace {A} (m : GM A) h : keeps m -> (forall e, keeps (h e)) -> keeps (on_ptrace_error m h).
  Proof. intros Hm Hh. unfold on_ptrace_error. repeat first [exact Hm|apply Hh|kstep]. Qed.
  Ltac kp := match goal with |- keeps (on_ptrace_error _ _) => apply keeps_ptrace; [|intros] end.
  Lemma keeps_show e : keeps (show_error p e).
  Proof. unfold show_error, read_warning. repeat kstep. Qed.
  Lemma keeps_hexloop fuel : forall id width a b e, keeps (hexdump_loop p env fuel id width a b e).
  Proof. induction fuel as [|n IH]; intros; cbn [hexdump_loop]; repeat first [apply IH|apply keeps_show|kstep]. Qed.
  Lemma keeps_hexrange width a b l : keeps (hexdump_range p env width a b l).
  Proof. unfold hexdump_range. repeat first [apply keeps_hexloop|apply keeps_show|kstep]. Qed.
  Lemma keeps_hexdump t : keeps (hexdump p eval env t).
  Proof. unfold hexdump. repeat first [apply keeps_hexrange|kstep]. Qed.
  Lemma keeps_displayInstr t : keeps (displayInstr dis env t).
  Proof. unfold displayInstr. repeat first [kp|kstep]. Qed.
  Lemma keeps_instrSize a : keeps (readInstrSize dis env a).
  Proof. unfold readInstrSize. repeat first [kp|kstep]. Qed.
  Lemma keeps_step_wait o : keeps (step_wait env o).
  Proof. unfold step_wait. repeat kstep. Qed.
  Lemma keeps_step_break a : keeps (step_break dis env a).
  Proof. unfold step_break. repeat first [apply keeps_instrSize|kstep]. Qed.
  Lemma keeps_step b a : keeps (step p dis env b a).
  Proof. unfold step. repeat first [apply keeps_displayInstr|apply keeps_instrSize|apply keeps_step_wait|apply keeps_step_break|kstep]. Qed.
  Lemma keeps_breakpoints : keeps (displayBreakpoints env).
  Proof.
    unfold displayBreakpoints. kstep; [kstep|]. match goal with |- keeps (?f _ _) => enough (forall l b, keeps (f l b)) as G by apply G end. induction l as [|x l IH]; intros b; cbv beta iota fix; repeat first [apply IH|kstep].
  Qed.
  Lemma keeps_interrupt : keeps (interrupt env).
  Proof.
    unfold interrupt. kstep; [kstep|]. kstep; [|repeat kstep]. match goal with |- keeps (?f _ _) => enough (forall l b, keeps (f l b)) as G by apply G end. induction l as [|x l IH]; intros b; cbv beta iota fix; repeat first [apply IH|kstep].
  Qed.
  Lemma keeps_help : keeps help.
  Proof. unfold help. apply keeps_bind; [apply keeps_iter; intros; apply keeps_log; exact I|]. intros. repeat kstep. Qed.
  Lemma keeps_run c : (forall st id, w st -> w (del_last id st)) \/ (forall t, c <> KSignal t) -> keeps (run p ns dis eval env c).
  Proof.
    intros Hc. destruct c; cbn [run]; try (apply keeps_bind; [exact keeps_help|intros; apply keeps_ret]); unfold dump, none, attachProcess, where_, syscallTrace, set_, until, breakpoint, delete, displaySignals, print_, addFollowTerm, procList, gcore, py_open;
      try (destruct Hc as [Hc|Hc]; [apply keeps_signal; exact Hc|exfalso; eapply Hc; reflexivity]);
      repeat first [apply keeps_cont|apply keeps_switch|apply keeps_hexdump|apply keeps_step|apply keeps_breakpoints|apply keeps_displayInstr|apply keeps_instrSize|apply keeps_switchProcess|kp|kstep].
  Qed.
  Lemma keeps_execute c : (forall st id, w st -> w (del_last id st)) \/ (forall t, dispatch c <> KSignal t) -> keeps (execute p ns dis eval env c).
  Proof. intros Hc. unfold execute. kstep; [now apply keeps_run|]. repeat kstep. Qed.
  Lemma keeps_all l : (forall st id, w st -> w (del_last id st)) \/ Forall (fun c => forall t, dispatch (strip c) <> KSignal t) l -> keeps (execute_all p ns dis eval env l).
  Proof.
    intros Hc. induction l as [|c l IH]; cbn [execute_all]; [kstep|]. assert ((forall st id, w st -> w (del_last id st)) \/ (forall t, dispatch (strip c) <> KSignal t)) as Hc1 by (destruct Hc as [|Hc]; [now left|right; now inversion Hc]).
    assert (keeps (execute_all p ns dis eval env l)) as Hl by (apply IH; destruct Hc as [|Hc]; [now left|right; now inversion Hc]). repeat first [apply keeps_execute; exact Hc1|exact Hl|kstep].
  Qed.
  Lemma keeps_handle x : keeps (handle env x).
  Proof. unfold handle, deleteProcess. repeat first [apply keeps_interrupt|apply keeps_processSignal|apply keeps_nextProcess|apply keeps_switchProcess|kstep]. Qed.
  Hypothesis (w_previous : forall st x, w st -> w (set_previous x st)).
  Lemma keeps_line line : (forall st id, w st -> w (del_last id st)) \/ Forall (fun c => forall t, dispatch (strip c) <> KSignal t) (split_char ";"%char line) -> keeps (run_line p ns dis eval env line).
  Proof. intros Hc. unfold run_line. repeat first [apply keeps_modify; intros; now apply w_previous|apply keeps_all; exact Hc|apply keeps_handle|kstep]. Qed.
  Lemma keeps_main : (forall st id, w st -> w (del_last id st)) -> keeps (mainLoop p ns dis eval env).
  Proof. intros Hw. unfold mainLoop, read_input, restoreTerminal. repeat first [apply keeps_line; now left|apply keeps_interrupt|kstep]. Qed.
  Lemma keeps_session fuel : (forall st id, w st -> w (del_last id st)) -> keeps (session p ns dis eval env fuel).
  Proof. intros Hw. induction fuel as [|n IH]; cbn [session]; repeat first [apply keeps_main; exact Hw|apply IH|kstep]. Qed.
End Keeps.
Lemma pending_push c a h q : quiet c -> pending q ((c, a) :: h) = pending q h.
Proof. destruct c; cbn [quiet pending]; try reflexivity; [destruct l; try reflexivity; intros []|intros ->]. destruct a; try reflexivity. now rewrite andb_false_r. Qed.
Lemma sinv_push w st c a : quiet c -> sinv w st -> sinv w (push c a st).
Proof. intros Hq [H1 H2]. split; [exact H1|]. intros q. cbn [push g_hist]. rewrite pending_push by exact Hq. apply H2. Qed.
Lemma sinv_signal w s id st : sinv w st -> sinv w (push (CLog (LInterrupted id s)) AUnit (set_last (dset Nat.eqb id s (g_last st)) st)).
Proof.
  intros [H1 H2]. unfold sinv. cbn [g_last push set_last g_hist]. split; [now apply dset_NoDup; [apply Nat.eqb_eq|]|].
  intros q. unfold last_of. cbn [g_last push set_last g_hist pending]. destruct (Nat.eqb_spec id q) as [<-|Hq].
  - rewrite dget_dset_same by apply Nat.eqb_eq. now left.
  - rewrite dget_dset_other by (try apply Nat.eqb_eq; congruence). apply H2.
Qed.
Lemma sinv_del st id : sinv true st -> sinv true (del_last id st).
Proof.
  intros [H1 H2]. unfold del_last. destruct (dmem Nat.eqb id (g_last st)); [|split; assumption]. split.
  - cbn [set_last g_last]. now apply ddel_NoDup.
  - intros q. unfold last_of. cbn [set_last g_last g_hist]. destruct (Nat.eq_dec q id) as [->|Hq].
    + rewrite dget_ddel_same by (try apply Nat.eqb_eq; assumption). right. auto.
    + rewrite dget_ddel_other by (try apply Nat.eqb_eq; congruence). apply H2.
Qed.
  Lemma keeps_continue w env id s : keeps (sinv w) (continueProcess env id s).
  Proof.
    intros st [H1 H2]. unfold continueProcess. unfold gbind at 1, gget. set (sig := if s =? 0 then _ else _). destruct (Z.eqb_spec sig 0) as [E|E]; cbn [negb].
    - apply (keeps_unit (sinv w) (sinv_push w)); [reflexivity|]. split; assumption.
    - unfold gbind at 1, glog. unfold gbind at 1, ask_unit, gbind at 1, ask. cbn [push g_hist].
      destruct (env _ (CCont id sig)) eqn:Ea; cbn [gret graise ill fst];
        try (split; [exact H1|]; intros q; unfold last_of; cbn [push g_hist g_last pending]; apply H2).
      unfold gmodify. cbn [fst]. unfold del_last. cbn [push g_last]. split.
      + destruct (dmem Nat.eqb id (g_last st)); cbn [set_last g_last push]; [|exact H1]. now apply ddel_NoDup.
      + intros q. unfold last_of. destruct (dmem Nat.eqb id (g_last st)) eqn:Em; cbn [set_last push g_last g_hist pending]; apply Z.eqb_neq in E; rewrite E; cbn [negb]; rewrite ?andb_true_r; destruct (Nat.eqb_spec id q) as [<-|Hq].
        * rewrite dget_ddel_same by (try apply Nat.eqb_eq; assumption). now left.
        * rewrite dget_ddel_other by (try apply Nat.eqb_eq; congruence). apply H2.
        * unfold dmem in Em. destruct (dget Nat.eqb id (g_last st)); [discriminate|]. now left.
        * apply H2.
  Qed.
Lemma sinv_line w p ns dis eval env line : w = true \/ Forall (fun c => forall t, dispatch (strip c) <> KSignal t) (split_char ";"%char line) -> keeps (sinv w) (run_line p ns dis eval env line).
Proof.
  intros Hc. apply keeps_line; [apply sinv_push|auto|auto|apply sinv_signal|apply keeps_continue|auto|]. destruct Hc as [->|Hc]; [left; apply sinv_del|now right].
Qed.
Lemma sinv_session p ns dis eval env fuel : keeps (sinv true) (session p ns dis eval env fuel).
Proof. apply keeps_session; [apply sinv_push|auto|auto|apply sinv_signal|apply keeps_continue|auto|apply sinv_del]. Qed.
