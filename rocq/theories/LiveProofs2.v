(** * LiveProofs2: where the events of a command come from. *)
From Coq Require Import ZArith List Ascii String Bool Lia.
From Verif Require Import PyBase PyInt Platform IntModel ToolsModel SigModel DbgModel MapModel TraceModel PyEval ExprModel GdbModel EffectSpec.
Import ListNotations.
Open Scope Z_scope.

(** An event that ends a command was the answer to a call, or is one of [X]. *)
Section Told.
  Context (env : list (gcall * ans) -> gcall -> ans).
  Definition told {A} (X : event -> Prop) (m : GM A) : Prop := forall st, exists h, g_hist (fst (m st)) = h ++ g_hist st /\
    forall ev, snd (m st) = Raise (XEvent ev) -> X ev \/ exists c, In (c, ARaise (XEvent ev)) h.
  Lemma told_ret {A} X (a : A) : told X (gret a).
  Proof. intros st. exists []. split; [reflexivity|discriminate]. Qed.
  Lemma told_raise {A} (X : event -> Prop) x : (forall ev, x = XEvent ev -> X ev) -> told X (@graise A x).
  Proof. intros H st. exists []. split; [reflexivity|]. cbn. intros ev [= ->]. left. now apply H. Qed.
  Lemma told_get X : told X gget.
  Proof. intros st. exists []. split; [reflexivity|discriminate]. Qed.
  Lemma told_bind {A B} X (m : GM A) (f : A -> GM B) : told X m -> (forall a, told X (f a)) -> told X (gbind m f).
  Proof.
    intros Hm Hf st. unfold gbind. destruct (Hm st) as (h & H1 & H2). destruct (m st) as [st1 [a|x]]; cbn [fst snd] in *.
    - destruct (Hf a st1) as (h' & H3 & H4). exists (h' ++ h). split; [rewrite H3, H1, app_assoc; reflexivity|]. intros ev Hev. destruct (H4 ev Hev) as [H|[c H]]; [now left|right].
      exists c. apply in_app_iff. now left.
    - exists h. split; [exact H1|]. intros ev [= ->]. now apply H2.
  Qed.
  Lemma told_try {A} X (m : GM A) f : told X m -> (forall x, told (fun ev => X ev \/ x = XEvent ev) (f x)) -> told X (gtry m f).
  Proof.
    intros Hm Hf st. unfold gtry. destruct (Hm st) as (h & H1 & H2). destruct (m st) as [st1 [a|x]]; cbn [fst snd] in *.
    - exists h. split; [exact H1|discriminate].
    - destruct (Hf x st1) as (h' & H3 & H4). exists (h' ++ h). split; [rewrite H3, H1, app_assoc; reflexivity|]. intros ev Hev. destruct (H4 ev Hev) as [[H|H]|[c H]]; [now left| |].
      + destruct (H2 ev) as [H'|[c H']]; [now rewrite H|now left|right]. exists c. apply in_app_iff. now right.
      + right. exists c. apply in_app_iff. now left.
  Qed.
  Lemma told_iter {A} X (f : A -> GM unit) l : (forall a, told X (f a)) -> told X (giter f l).
  Proof. intros Hf. induction l as [|x l IH]; [apply told_ret|]. cbn [giter]. apply told_bind; [apply Hf|intros _; exact IH]. Qed.
  Lemma told_or {A} X (m : GM A) f : told X m -> (forall a, told X (f a)) -> told X (or_message m f).
  Proof.
    intros Hm Hf. unfold or_message. apply told_bind.
    - apply told_try; [apply told_bind; [exact Hm|intros; apply told_ret]|]. intros [[]|]; first [apply told_ret|apply told_raise; intros; try discriminate; now right].
    - intros [a|e]; [apply Hf|apply told_ret].
  Qed.
  Lemma told_modify X f : (forall st, g_hist (f st) = g_hist st) -> told X (gmodify f).
  Proof. intros Hf st. exists []. split; [apply Hf|discriminate]. Qed.
  Lemma told_log X l : told X (glog l).
  Proof. intros st. exists [(CLog l, AUnit)]. split; [reflexivity|discriminate]. Qed.
  Lemma told_lift {A} X (r : res A) : told X (glift r).
  Proof. destruct r; [apply told_ret|apply told_raise; discriminate]. Qed.
  Lemma told_ask X c : told X (ask env c).
  Proof.
    intros st. exists [(c, env (g_hist st) c)]. split; [reflexivity|]. unfold ask. intros ev H. right. exists c. left. destruct (env (g_hist st) c); try discriminate H. cbn in H. injection H as ->. reflexivity.
  Qed.
  Context (p : platform) (ns : namespace) (dis : bool) (eval : text -> res pyval).
  Ltac tstep :=
    match goal with
    | |- told _ (gbind _ _) => apply told_bind; [|intros]
    | |- told _ (gret _) => apply told_ret
    | |- told _ (graise _) => apply told_raise; intros; solve [discriminate|tauto]
    | |- told _ ill => apply told_raise; intros; discriminate
    | |- told _ gget => apply told_get
    | |- told _ (gtry _ _) => apply told_try; [|intros]
    | |- told _ (giter _ _) => apply told_iter; intros
    | |- told _ (or_message _ _) => apply told_or; [|intros]
    | |- told _ (on_ptrace_error _ _) => unfold on_ptrace_error
    | |- told _ (glog _) => apply told_log
    | |- told _ (ask _ _) => apply told_ask
    | |- told _ (ask_unit _ _) => unfold ask_unit
    | |- told _ (ask_bool _ _) => unfold ask_bool
    | |- told _ (ask_int _ _) => unfold ask_int
    | |- told _ (ask_bytes _ _) => unfold ask_bytes
    | |- told _ (ask_procs _ _) => unfold ask_procs
    | |- told _ (ask_obj _ _) => unfold ask_obj
    | |- told _ (ask_new _ _) => unfold ask_new
    | |- told _ (ask_event _ _) => unfold ask_event
    | |- told _ (ask_maps _ _) => unfold ask_maps
    | |- told _ (glift _) => apply told_lift
    | |- told _ (gmodify _) => apply told_modify; intros; unfold del_last; try match goal with |- context [dmem ?a ?b ?c] => destruct (dmem a b c) end; reflexivity
    | |- told _ (g_parseInteger _ _ _ _) => unfold g_parseInteger
    | |- told _ (g_parseIntegers _ _ _ _) => unfold g_parseIntegers
    | |- told _ (match ?x with _ => _ end) => destruct x
    | |- told _ (let '(_, _) := ?x in _) => destruct x
    | |- told _ (if ?x then _ else _) => destruct x
    end.
  Lemma told_hexloop X fuel : forall id width a b e, told X (hexdump_loop p env fuel id width a b e).
  Proof. induction fuel as [|n IH]; intros; cbn [hexdump_loop]; unfold show_error, read_warning; repeat first [apply IH|tstep]. Qed.
  Lemma told_hexdump X t : told X (hexdump p eval env t).
  Proof. unfold hexdump, hexdump_range, show_error, read_warning. repeat first [apply told_hexloop|tstep]. Qed.
  Lemma told_displayInstr X t : told X (displayInstr dis env t).
  Proof. unfold displayInstr. repeat tstep. Qed.
  Lemma told_instrSize X a : told X (readInstrSize dis env a).
  Proof. unfold readInstrSize. repeat tstep. Qed.
  Lemma told_step X b a : told X (step p dis env b a).
  Proof. unfold step, step_wait, step_break. repeat first [apply told_displayInstr|apply told_instrSize|tstep]. Qed.
  Lemma told_breakpoints X : told X (displayBreakpoints env).
  Proof.
    unfold displayBreakpoints. tstep; [repeat tstep|]. match goal with |- told _ (?f _ _) => enough (forall l b, told X (f l b)) as H by apply H end. induction l as [|x l IH]; intros b; cbv beta iota fix; repeat first [apply IH|tstep].
  Qed.
  Lemma told_help X : told X help.
  Proof. unfold help. apply told_bind; [apply told_iter; intros; apply told_log|]. intros. repeat tstep. Qed.
  Lemma told_switchProcess X id : told X (switchProcess id).
  Proof. unfold switchProcess. repeat tstep. Qed.
  Lemma told_continue X id s : told X (continueProcess env id s).
  Proof. unfold continueProcess. repeat tstep. Qed.
  Lemma told_cont X s : told X (gdb_cont p env s).
  Proof. unfold gdb_cont, cont_loop, processSignal. repeat first [apply told_continue|apply told_switchProcess|tstep]. Qed.
  Lemma told_signal X t : told X (gdb_signal p ns eval env t).
  Proof. unfold gdb_signal, parseSignum. repeat first [apply told_cont|tstep]. Qed.
  Lemma told_run X k : told X (run p ns dis eval env k).
  Proof.
    destruct k; cbn [run]; try (apply told_bind; [apply told_help|intros; apply told_ret]); unfold dump, none, attachProcess, where_, syscallTrace, set_, until, breakpoint, delete, displaySignals, print_, addFollowTerm, procList, gcore, py_open, switch;
      repeat first [apply told_hexdump|apply told_step|apply told_breakpoints|apply told_displayInstr|apply told_instrSize|apply told_switchProcess|apply told_signal|apply told_cont|tstep].
  Qed.
End Told.
Lemma run_told p ns dis eval env k g g1 ev : run p ns dis eval env k g = (g1, Raise (XEvent ev)) -> exists h c, g_hist g1 = h ++ g_hist g /\ In (c, ARaise (XEvent ev)) h.
Proof.
  intros H. destruct (told_run env p ns dis eval (fun _ => False) k g) as (h & H1 & H2). rewrite H in H1, H2. destruct (H2 ev eq_refl) as [[]|[c Hc]]. exists h, c. auto.
Qed.
