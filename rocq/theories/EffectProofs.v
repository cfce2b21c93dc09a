(** * EffectProofs: proofs for EffectSpec. *)
From Coq Require Import ZArith List Ascii String Bool Lia.
From Verif Require Import PyBase PyInt Platform IntModel ToolsModel SigModel DbgModel MapModel TraceModel PyEval ExprModel GdbModel EffectSpec.
Import ListNotations.
Open Scope Z_scope.

(** ** What is kept of the state of the debugger *)
Section Field.
  Context {X : Type} (w : gstate -> X).
  Hypothesis (w_push : forall c a st, w (push c a st) = w st).
  Definition same {A} (m : GM A) : Prop := forall st, w (fst (m st)) = w st.
  Lemma same_ret {A} (a : A) : same (gret a).
  Proof. intros st. reflexivity. Qed.
  Lemma same_raise {A} x : same (@graise A x).
  Proof. intros st. reflexivity. Qed.
  Lemma same_get : same gget.
  Proof. intros st. reflexivity. Qed.
  Lemma same_bind {A B} (m : GM A) (f : A -> GM B) : same m -> (forall a, same (f a)) -> same (gbind m f).
  Proof. intros Hm Hf st. unfold gbind. specialize (Hm st). destruct (m st) as [st1 [a|x]]; [rewrite Hf; exact Hm|exact Hm]. Qed.
  Lemma same_try {A} (m : GM A) h : same m -> (forall x, same (h x)) -> same (gtry m h).
  Proof. intros Hm Hf st. unfold gtry. specialize (Hm st). destruct (m st) as [st1 [a|x]]; [exact Hm|rewrite Hf; exact Hm]. Qed.
  Lemma same_iter {A} (f : A -> GM unit) l : (forall a, same (f a)) -> same (giter f l).
  Proof. intros Hf. induction l as [|x l IH]; [apply same_ret|]. cbn [giter]. apply same_bind; [apply Hf|intros _; exact IH]. Qed.
  Lemma same_or {A} (m : GM A) f : same m -> (forall a, same (f a)) -> same (or_message m f).
  Proof.
    intros Hm Hf. unfold or_message. apply same_bind.
    - apply same_try; [apply same_bind; [exact Hm|intros; apply same_ret]|]. intros [[]|]; first [apply same_ret|apply same_raise].
    - intros [a|e]; [apply Hf|apply same_ret].
  Qed.
  Lemma same_modify f : (forall st, w (f st) = w st) -> same (gmodify f).
  Proof. intros Hf st. apply Hf. Qed.
  Lemma same_log l : same (glog l).
  Proof. intros st. apply w_push. Qed.
  Lemma same_lift {A} (r : res A) : same (glift r).
  Proof. destruct r; [apply same_ret|apply same_raise]. Qed.
  Context (p : platform) (ns : namespace) (dis : bool) (eval : text -> res pyval) (env : list (gcall * ans) -> gcall -> ans).
  Lemma same_ask c : same (ask env c).
  Proof. intros st. apply w_push. Qed.
  Ltac fstep :=
    match goal with
    | |- same (gbind _ _) => apply same_bind; [|intros]
    | |- same (gret _) => apply same_ret
    | |- same (graise _) => apply same_raise
    | |- same ill => apply same_raise
    | |- same gget => apply same_get
    | |- same (gtry _ _) => apply same_try; [|intros]
    | |- same (giter _ _) => apply same_iter; intros
    | |- same (or_message _ _) => apply same_or; [|intros]
    | |- same (on_ptrace_error _ _) => unfold on_ptrace_error
    | |- same (glog _) => apply same_log
    | |- same (ask _ _) => apply same_ask
    | |- same (ask_unit _ _) => unfold ask_unit
    | |- same (ask_bool _ _) => unfold ask_bool
    | |- same (ask_int _ _) => unfold ask_int
    | |- same (ask_bytes _ _) => unfold ask_bytes
    | |- same (ask_procs _ _) => unfold ask_procs
    | |- same (ask_obj _ _) => unfold ask_obj
    | |- same (ask_new _ _) => unfold ask_new
    | |- same (ask_event _ _) => unfold ask_event
    | |- same (ask_maps _ _) => unfold ask_maps
    | |- same (glift _) => apply same_lift
    | |- same (g_parseInteger _ _ _ _) => unfold g_parseInteger
    | |- same (g_parseIntegers _ _ _ _) => unfold g_parseIntegers
    | |- same (match ?x with _ => _ end) => destruct x
    | |- same (let '(_, _) := ?x in _) => destruct x
    | |- same (if ?x then _ else _) => destruct x
    end.
  Lemma same_hexloop fuel : forall id width a b e, same (hexdump_loop p env fuel id width a b e).
  Proof. induction fuel as [|n IH]; intros; cbn [hexdump_loop]; unfold show_error, read_warning; repeat first [apply IH|fstep]. Qed.
  Lemma same_hexdump t : same (hexdump p eval env t).
  Proof. unfold hexdump, hexdump_range, show_error, read_warning. repeat first [apply same_hexloop|fstep]. Qed.
  Lemma same_displayInstr t : same (displayInstr dis env t).
  Proof. unfold displayInstr. repeat fstep. Qed.
  Lemma same_instrSize a : same (readInstrSize dis env a).
  Proof. unfold readInstrSize. repeat fstep. Qed.
  Lemma same_step b a : same (step p dis env b a).
  Proof. unfold step, step_wait, step_break. repeat first [apply same_displayInstr|apply same_instrSize|fstep]. Qed.
  Lemma same_breakpoints : same (displayBreakpoints env).
  Proof.
    unfold displayBreakpoints. fstep; [repeat fstep|]. match goal with |- same (?f _ _) => enough (forall l b, same (f l b)) as G by apply G end. induction l as [|x l IH]; intros b; cbv beta iota fix; repeat first [apply IH|fstep].
  Qed.
  Lemma same_help : same help.
  Proof. unfold help. apply same_bind; [apply same_iter; intros; apply same_log|]. intros. repeat fstep. Qed.
  Lemma same_switchProcess id : (forall st, w (set_process id st) = w st) -> same (switchProcess id).
  Proof. intros Hw. unfold switchProcess. repeat first [apply same_modify; exact Hw|fstep]. Qed.
  Lemma same_continue id s : (forall st, w (del_last id st) = w st) -> same (continueProcess env id s).
  Proof. intros Hw. unfold continueProcess. repeat first [apply same_modify; exact Hw|fstep]. Qed.
  Lemma same_cont s : (forall id st, w (set_process id st) = w st) -> (forall l st, w (set_last l st) = w st) -> same (gdb_cont p env s).
  Proof.
    intros Hp Hl. assert (forall id st, w (del_last id st) = w st) as Hd by (intros; unfold del_last; destruct (dmem _ _ _); [apply Hl|reflexivity]).
    unfold gdb_cont, cont_loop, processSignal. repeat first [apply same_continue; apply Hd|apply same_switchProcess; apply Hp|apply same_modify; intros; apply Hl|fstep].
  Qed.
  Lemma same_signal t : (forall id st, w (set_process id st) = w st) -> (forall l st, w (set_last l st) = w st) -> same (gdb_signal p ns eval env t).
  Proof.
    intros Hp Hl. assert (forall id st, w (del_last id st) = w st) as Hd by (intros; unfold del_last; destruct (dmem _ _ _); [apply Hl|reflexivity]).
    unfold gdb_signal, parseSignum. repeat first [apply same_cont; assumption|apply same_modify; intros; apply Hd|fstep].
  Qed.
  Lemma same_run k : (changes_process k = true -> forall id st, w (set_process id st) = w st) -> (changes_signals k = true -> forall l st, w (set_last l st) = w st) ->
    (changes_terms k = true -> forall f st, w (set_follow f st) = w st) -> same (run p ns dis eval env k).
  Proof.
    intros Hp Hl Hf. destruct k; cbn [run]; try (apply same_bind; [exact same_help|intros; apply same_ret]); unfold dump, none, attachProcess, where_, syscallTrace, set_, until, breakpoint, delete, displaySignals, print_, addFollowTerm, procList, gcore, py_open, switch;
      try (apply same_signal; [exact (Hp eq_refl)|exact (Hl eq_refl)]); try (apply same_cont; [exact (Hp eq_refl)|exact (Hl eq_refl)]);
      repeat first [apply same_hexdump|apply same_step|apply same_breakpoints|apply same_displayInstr|apply same_instrSize
                   |apply same_switchProcess; exact (Hp eq_refl _)|apply same_modify; intros; exact (Hf eq_refl _ _)|fstep].
  Qed.
End Field.

Section Effect.
  Context (p : platform) (ns : namespace) (dis : bool) (eval : text -> res pyval) (env : list (gcall * ans) -> gcall -> ans).
  Context (cur : nat) (k : command) (h0 : history).
  (** Lawful so far *)
  Definition W (st : gstate) : Prop := exists h, g_hist st = h ++ h0 /\ lawful cur k h.
  (** and [R] was resumed, the calls [F] were made, and the current process is the same *)
  Definition J (R : list nat) (F : history) (st : gstate) : Prop :=
    exists h, g_hist st = h ++ h0 /\ lawful cur k h /\ resumed h = R /\ incl F h /\ g_process st = cur.
  Definition stay {A} (R : list nat) (F : history) (m : GM A) : Prop := forall st, J R F st -> J R F (fst (m st)).
  Definition fine {A} (R : list nat) (F : history) (m : GM A) : Prop := forall st, J R F st -> W (fst (m st)).
  Definition idle {A} (m : GM A) : Prop := forall st, W st -> W (fst (m st)).
  Lemma J_W R F st : J R F st -> W st.
  Proof. intros (h & H1 & H2 & _). exists h. auto. Qed.
  Lemma J_incl R F F' st : incl F' F -> J R F st -> J R F' st.
  Proof. intros Hi (h & H1 & H2 & H3 & H4 & H5). exists h. repeat split; auto. intros x Hx. auto. Qed.
  Lemma J_push R F c a st : (forall h, resumed h = R -> incl F h -> may cur h k c) -> J R F st -> J (resumes c ++ R) ((c, a) :: F) (push c a st).
  Proof.
    intros Hc (h & H1 & H2 & H3 & H4 & H5). exists ((c, a) :: h). cbn [push g_hist g_process lawful resumed flat_map fst]. rewrite H1. repeat split; auto.
    - unfold resumed in H3. now rewrite H3.
    - intros x [<-|Hx]; [now left|right; auto].
  Qed.
  Lemma W_push c a st : (forall h, may cur h k c) -> W st -> W (push c a st).
  Proof. intros Hc (h & H1 & H2). exists ((c, a) :: h). cbn [push g_hist lawful]. rewrite H1. split; [reflexivity|]. split; auto. Qed.
  (** *** stay *)
  Lemma stay_fine {A} R F (m : GM A) : stay R F m -> fine R F m.
  Proof. intros H st HJ. eapply J_W, H, HJ. Qed.
  Lemma stay_ret {A} R F (a : A) : stay R F (gret a).
  Proof. intros st H. exact H. Qed.
  Lemma stay_raise {A} R F x : stay R F (@graise A x).
  Proof. intros st H. exact H. Qed.
  Lemma stay_bind {A B} R F (m : GM A) (f : A -> GM B) : stay R F m -> (forall a, stay R F (f a)) -> stay R F (gbind m f).
  Proof. intros Hm Hf st H. unfold gbind. specialize (Hm st H). destruct (m st) as [st1 [a|x]]; [apply Hf; exact Hm|exact Hm]. Qed.
  Lemma stay_get {A} R F (f : gstate -> GM A) : (forall s, g_process s = cur -> stay R F (f s)) -> stay R F (gbind gget f).
  Proof. intros Hf st H. unfold gbind, gget. apply Hf; [|exact H]. now destruct H as (h & _ & _ & _ & _ & H). Qed.
  Lemma stay_try {A} R F (m : GM A) h : stay R F m -> (forall x, stay R F (h x)) -> stay R F (gtry m h).
  Proof. intros Hm Hf st H. unfold gtry. specialize (Hm st H). destruct (m st) as [st1 [a|x]]; [exact Hm|apply Hf; exact Hm]. Qed.
  Lemma stay_iter {A} R F (f : A -> GM unit) l : (forall a, stay R F (f a)) -> stay R F (giter f l).
  Proof. intros Hf. induction l as [|x l IH]; [apply stay_ret|]. cbn [giter]. apply stay_bind; [apply Hf|intros _; exact IH]. Qed.
  Lemma stay_or {A} R F (m : GM A) f : stay R F m -> (forall a, stay R F (f a)) -> stay R F (or_message m f).
  Proof.
    intros Hm Hf. unfold or_message. apply stay_bind.
    - apply stay_try; [apply stay_bind; [exact Hm|intros; apply stay_ret]|]. intros [[]|]; first [apply stay_ret|apply stay_raise].
    - intros [a|e]; [apply Hf|apply stay_ret].
  Qed.
  Lemma stay_ptrace {A} R F (m : GM A) h : stay R F m -> (forall e, stay R F (h e)) -> stay R F (on_ptrace_error m h).
  Proof. intros Hm Hh. unfold on_ptrace_error. apply stay_try; [exact Hm|]. intros [e|ev]; [destruct (is_ptrace_error e); [apply Hh|]|]; apply stay_raise. Qed.
  Lemma stay_lift {A} R F (r : res A) : stay R F (glift r).
  Proof. destruct r; [apply stay_ret|apply stay_raise]. Qed.
  Lemma stay_log R F l : stay R F (glog l).
  Proof. intros st H. cbn [glog fst]. eapply J_incl; [|eapply (J_push R F (CLog l)); [|exact H]]; [intros x Hx; now right|]. intros. now apply may_look. Qed.
  Lemma stay_ask R F c : resumes c = [] -> (forall h, resumed h = R -> incl F h -> may cur h k c) -> stay R F (ask env c).
  Proof.
    intros Hr Hc st H. unfold ask. cbn [fst]. eapply J_incl; [|rewrite <- (app_nil_l R), <- Hr; eapply J_push; [exact Hc|exact H]]. intros x Hx; now right.
  Qed.
  Ltac asks := intros Hr Hc; apply stay_bind; [now apply stay_ask|]; let a := fresh in intros a; destruct a; try match goal with |- context [match ?o with Some _ => _ | None => _ end] => destruct o end; first [apply stay_ret|apply stay_raise].
  Lemma stay_unit R F c : resumes c = [] -> (forall h, resumed h = R -> incl F h -> may cur h k c) -> stay R F (ask_unit env c).  Proof. asks. Qed.
  Lemma stay_bool R F c : resumes c = [] -> (forall h, resumed h = R -> incl F h -> may cur h k c) -> stay R F (ask_bool env c).  Proof. asks. Qed.
  Lemma stay_int R F c : resumes c = [] -> (forall h, resumed h = R -> incl F h -> may cur h k c) -> stay R F (ask_int env c).  Proof. asks. Qed.
  Lemma stay_bytes R F c : resumes c = [] -> (forall h, resumed h = R -> incl F h -> may cur h k c) -> stay R F (ask_bytes env c).  Proof. asks. Qed.
  Lemma stay_procs R F c : resumes c = [] -> (forall h, resumed h = R -> incl F h -> may cur h k c) -> stay R F (ask_procs env c).  Proof. asks. Qed.
  Lemma stay_obj R F c : resumes c = [] -> (forall h, resumed h = R -> incl F h -> may cur h k c) -> stay R F (ask_obj env c).  Proof. asks. Qed.
  Lemma stay_new R F c : resumes c = [] -> (forall h, resumed h = R -> incl F h -> may cur h k c) -> stay R F (ask_new env c).  Proof. asks. Qed.
  Lemma stay_event R F c : resumes c = [] -> (forall h, resumed h = R -> incl F h -> may cur h k c) -> stay R F (ask_event env c).  Proof. asks. Qed.
  Lemma stay_maps R F c : resumes c = [] -> (forall h, resumed h = R -> incl F h -> may cur h k c) -> stay R F (ask_maps env c).  Proof. asks. Qed.
  Lemma stay_parse R F t : stay R F (g_parseInteger p eval env t).
  Proof. apply stay_get. intros. apply stay_lift. Qed.
  Lemma stay_parses R F t : stay R F (g_parseIntegers p eval env t).
  Proof. apply stay_get. intros. apply stay_lift. Qed.
  (** *** fine *)
  Lemma fine_bind {A B} R F (m : GM A) (f : A -> GM B) : stay R F m -> (forall a, fine R F (f a)) -> fine R F (gbind m f).
  Proof. intros Hm Hf st H. unfold gbind. specialize (Hm st H). destruct (m st) as [st1 [a|x]]; [apply Hf; exact Hm|eapply J_W; exact Hm]. Qed.
  Lemma fine_then {A B} R F (m : GM A) (f : A -> GM B) : fine R F m -> (forall a, idle (f a)) -> fine R F (gbind m f).
  Proof. intros Hm Hf st H. unfold gbind. specialize (Hm st H). destruct (m st) as [st1 [a|x]]; [apply Hf; exact Hm|exact Hm]. Qed.
  Lemma fine_try {A} R F (m : GM A) h : fine R F m -> (forall x, idle (h x)) -> fine R F (gtry m h).
  Proof. intros Hm Hf st H. unfold gtry. specialize (Hm st H). destruct (m st) as [st1 [a|x]]; [exact Hm|apply Hf; exact Hm]. Qed.
  Lemma fine_get {A} R F (f : gstate -> GM A) : (forall s, g_process s = cur -> fine R F (f s)) -> fine R F (gbind gget f).
  Proof. intros Hf st H. unfold gbind, gget. apply Hf; [|exact H]. now destruct H as (h & _ & _ & _ & _ & H). Qed.
  Lemma fine_or {A} R F (m : GM A) f : stay R F m -> (forall a, fine R F (f a)) -> fine R F (or_message m f).
  Proof.
    intros Hm Hf. unfold or_message. apply fine_bind.
    - apply stay_try; [apply stay_bind; [exact Hm|intros; apply stay_ret]|]. intros [[]|]; first [apply stay_ret|apply stay_raise].
    - intros [a|e]; [apply Hf|apply stay_fine, stay_ret].
  Qed.
  (** a call and what follows, with its answer *)
  Lemma fine_ask {A} R F c (f : ans -> GM A) : (forall h, resumed h = R -> incl F h -> may cur h k c) ->
    (forall a, fine (resumes c ++ R) ((c, a) :: F) (f a)) -> fine R F (gbind (ask env c) f).
  Proof.
    intros Hc Hf st H. unfold gbind, ask. set (a := env (g_hist st) c). pose proof (J_push R F c a st Hc H) as HJ.
    specialize (Hf a _ HJ). destruct a; try exact Hf. eapply J_W, HJ.
  Qed.
  Lemma bind_assoc {A B C} (m : GM A) (f : A -> GM B) (g : B -> GM C) st : gbind (gbind m f) g st = gbind m (fun a => gbind (f a) g) st.
  Proof. unfold gbind. destruct (m st) as [st1 [a|x]]; reflexivity. Qed.
  Lemma fine_ext {A} R F (m m' : GM A) : (forall st, m st = m' st) -> fine R F m' -> fine R F m.
  Proof. intros He H st HJ. rewrite He. now apply H. Qed.
  Lemma fine_raise {A} R F x : fine R F (@graise A x).
  Proof. apply stay_fine, stay_raise. Qed.
  Lemma fine_unit {A} R F c (f : unit -> GM A) : (forall h, resumed h = R -> incl F h -> may cur h k c) ->
    fine (resumes c ++ R) ((c, AUnit) :: F) (f tt) -> fine R F (gbind (ask_unit env c) f).
  Proof.
    intros Hc Hf. eapply fine_ext; [intros; apply bind_assoc|]. apply fine_ask; [exact Hc|]. intros []; first [exact Hf|apply fine_raise].
  Qed.
  Lemma fine_obj {A} R F c (f : option nat -> GM A) : (forall h, resumed h = R -> incl F h -> may cur h k c) ->
    (forall o, fine (resumes c ++ R) ((c, AObj o) :: F) (f o)) -> fine R F (gbind (ask_obj env c) f).
  Proof.
    intros Hc Hf. eapply fine_ext; [intros; apply bind_assoc|]. apply fine_ask; [exact Hc|]. intros []; first [exact (Hf _)|apply fine_raise].
  Qed.
  Lemma fine_new {A} R F c (f : nat -> GM A) : (forall h, resumed h = R -> incl F h -> may cur h k c) ->
    (forall o, fine (resumes c ++ R) ((c, AObj (Some o)) :: F) (f o)) -> fine R F (gbind (ask_new env c) f).
  Proof.
    intros Hc Hf. eapply fine_ext; [intros; apply bind_assoc|]. apply fine_ask; [exact Hc|]. intros []; try destruct o; first [exact (Hf _)|apply fine_raise].
  Qed.
  Lemma fine_procs {A} R F c (f : list nat -> GM A) : (forall h, resumed h = R -> incl F h -> may cur h k c) ->
    (forall l, fine (resumes c ++ R) ((c, AProcs l) :: F) (f l)) -> fine R F (gbind (ask_procs env c) f).
  Proof.
    intros Hc Hf. eapply fine_ext; [intros; apply bind_assoc|]. apply fine_ask; [exact Hc|]. intros []; first [exact (Hf _)|apply fine_raise].
  Qed.
  (** *** idle *)
  Lemma idle_ret {A} (a : A) : idle (gret a).
  Proof. intros st H. exact H. Qed.
  Lemma idle_raise {A} x : idle (@graise A x).
  Proof. intros st H. exact H. Qed.
  Lemma idle_bind {A B} (m : GM A) (f : A -> GM B) : idle m -> (forall a, idle (f a)) -> idle (gbind m f).
  Proof. intros Hm Hf st H. unfold gbind. specialize (Hm st H). destruct (m st) as [st1 [a|x]]; [apply Hf; exact Hm|exact Hm]. Qed.
  Lemma idle_modify f : (forall st, g_hist (f st) = g_hist st) -> idle (gmodify f).
  Proof. intros Hf st (h & H1 & H2). exists h. cbn [gmodify fst]. rewrite Hf. auto. Qed.
  Lemma idle_log l : idle (glog l).
  Proof. intros st H. cbn [glog fst]. apply W_push; [|exact H]. intros. now apply may_look. Qed.
  Lemma idle_unit c : (forall h, may cur h k c) -> idle (ask_unit env c).
  Proof. intros Hc. apply idle_bind; [intros st H; now apply W_push|]. intros []; first [apply idle_ret|apply idle_raise]. Qed.
  Lemma idle_fine {A} R F (m : GM A) : idle m -> fine R F m.
  Proof. intros H st HJ. eapply H, J_W, HJ. Qed.
  Lemma idle_switchProcess id : idle (switchProcess id).
  Proof. unfold switchProcess. apply idle_bind; [intros st H; exact H|]. intros s. destruct (Nat.eqb _ _); [apply idle_ret|]. apply idle_bind; [apply idle_log|]. intros. apply idle_modify. reflexivity. Qed.
  Lemma del_last_hist id st : g_hist (del_last id st) = g_hist st.
  Proof. unfold del_last. destruct (dmem _ _ _); reflexivity. Qed.
  Lemma idle_processSignal s id : idle (processSignal env s id).
  Proof.
    unfold processSignal. apply idle_bind; [apply idle_unit; intros; now apply may_look|]. intros. apply idle_bind; [apply idle_switchProcess|]. intros.
    apply idle_bind; [intros st H; exact H|]. intros st. apply idle_bind; [apply idle_modify; reflexivity|]. intros. apply idle_log.
  Qed.
  (** *** the pieces of commands *)
  Ltac law := intros; first [now apply may_look|apply may_look; cbn [looks]; congruence].
  Ltac sstep :=
    match goal with
    | |- stay _ _ (gbind gget _) => apply stay_get; intros
    | |- stay _ _ (gbind _ _) => apply stay_bind; [|intros]
    | |- stay _ _ (gret _) => apply stay_ret
    | |- stay _ _ (graise _) => apply stay_raise
    | |- stay _ _ ill => apply stay_raise
    | |- stay _ _ (gtry _ _) => apply stay_try; [|intros]
    | |- stay _ _ (giter _ _) => apply stay_iter; intros
    | |- stay _ _ (or_message _ _) => apply stay_or; [|intros]
    | |- stay _ _ (on_ptrace_error _ _) => apply stay_ptrace; [|intros]
    | |- stay _ _ (glog _) => apply stay_log
    | |- stay _ _ (ask _ _) => apply stay_ask; [reflexivity|law]
    | |- stay _ _ (ask_unit _ _) => apply stay_unit; [reflexivity|law]
    | |- stay _ _ (ask_bool _ _) => apply stay_bool; [reflexivity|law]
    | |- stay _ _ (ask_int _ _) => apply stay_int; [reflexivity|law]
    | |- stay _ _ (ask_bytes _ _) => apply stay_bytes; [reflexivity|law]
    | |- stay _ _ (ask_procs _ _) => apply stay_procs; [reflexivity|law]
    | |- stay _ _ (ask_obj _ _) => apply stay_obj; [reflexivity|law]
    | |- stay _ _ (ask_maps _ _) => apply stay_maps; [reflexivity|law]
    | |- stay _ _ (glift _) => apply stay_lift
    | |- stay _ _ (g_parseInteger _ _ _ _) => apply stay_parse
    | |- stay _ _ (g_parseIntegers _ _ _ _) => apply stay_parses
    | |- stay _ _ (match ?x with _ => _ end) => destruct x
    | |- stay _ _ (let '(_, _) := ?x in _) => destruct x
    | |- stay _ _ (if ?x then _ else _) => destruct x
    end.
  Lemma stay_show R F e : stay R F (show_error p e).
  Proof. unfold show_error, read_warning. repeat sstep. Qed.
  Lemma stay_hexloop R F fuel : forall width a b e, stay R F (hexdump_loop p env fuel cur width a b e).
  Proof. induction fuel as [|n IH]; intros; cbn [hexdump_loop]; repeat first [apply IH|apply stay_show|sstep]. Qed.
  Lemma stay_hexrange R F width a b l : stay R F (hexdump_range p env width a b l).
  Proof. unfold hexdump_range. apply stay_get. intros s Hs. rewrite Hs. repeat first [apply stay_hexloop|apply stay_show|sstep]. Qed.
  Lemma stay_hexdump R F t : stay R F (hexdump p eval env t).
  Proof. unfold hexdump. repeat first [apply stay_hexrange|sstep]. Qed.
  Lemma stay_displayInstr R F t : stay R F (displayInstr dis env t).
  Proof. unfold displayInstr. repeat sstep. Qed.
  Lemma stay_instrSize R F a : stay R F (readInstrSize dis env a).
  Proof. unfold readInstrSize. repeat sstep. Qed.
  Lemma stay_breakpoints R F : stay R F (displayBreakpoints env).
  Proof.
    unfold displayBreakpoints. sstep; [sstep|]. match goal with |- stay _ _ (?f _ _) => enough (forall l b, stay R F (f l b)) as G by apply G end. induction l as [|x l IH]; intros b; cbv beta iota fix; repeat first [apply IH|sstep].
  Qed.
  Lemma stay_help R F : stay R F help.
  Proof. unfold help. apply stay_bind; [apply stay_iter; intros; apply stay_log|]. intros. repeat sstep. Qed.
  Lemma fine_switch R F t : fine R F (switch p eval env t).
  Proof.
    unfold switch. destruct t as [|c t].
    - apply fine_bind; [sstep|]. intros l. destruct (Nat.eqb _ 1); [apply stay_fine; sstep|]. apply fine_get. intros s Hs. destruct (index_of _ _); [|apply fine_raise].
      destruct (nth_error _ _); [|apply fine_raise]. apply idle_fine, idle_bind; [apply idle_switchProcess|intros; apply idle_ret].
    - apply fine_or; [sstep|]. intros pid. apply fine_bind; [sstep|]. intros [id|]; [|apply stay_fine; sstep]. apply idle_fine, idle_bind; [apply idle_switchProcess|intros; apply idle_ret].
  Qed.
  Lemma fine_attach F t : k = KAttach t -> fine [] F (attachProcess p eval env t).
  Proof.
    intros Hk. unfold attachProcess. apply fine_or; [sstep|]. intros pid. apply fine_bind; [apply stay_new; [reflexivity|]; intros; rewrite Hk; apply may_attach|]. intros id.
    apply idle_fine, idle_bind; [apply idle_switchProcess|intros; apply idle_ret].
  Qed.
  (** cont *)
  Lemma cont_loop_fine {A} s l0 F (f : unit -> GM A) : is_cont k -> In (CProcesses, AProcs l0) F -> forall l R, incl l l0 -> (NoDup l0 -> NoDup l /\ forall id, In id l -> ~ In id R) ->
    (forall R F', incl F F' -> fine R F' (f tt)) -> fine R F (gbind (cont_loop env s l) f).
  Proof.
    intros Hk HF l. revert F HF. induction l as [|id l IH]; intros F HF R Hl Hn Hf; [intros st H; cbn; exact (Hf R F (fun _ h => h) st H)|].
    assert (In id l0) as Hid by (apply Hl; now left). assert (NoDup l0 -> ~ In id R) as HR by (intros G; apply (Hn G); now left).
    unfold cont_loop. cbn [giter]. eapply fine_ext; [intros; apply bind_assoc|]. eapply fine_ext.
    { intros st. exact (bind_assoc _ _ _ st). }
    apply fine_bind; [apply stay_unit; [reflexivity|]; intros h _ Hh; eapply may_clear; eauto|]. intros _.
    eapply fine_ext; [intros st; exact (bind_assoc _ _ _ st)|]. apply fine_get. intros s1 Hs1.
    assert (forall sg (g : unit -> GM A), (forall F', incl F F' -> fine (id :: R) F' (g tt)) -> fine R F (gbind (continueProcess env id sg) g)) as Hc.
    { intros sg g Hg. unfold continueProcess. eapply fine_ext; [intros st; exact (bind_assoc _ _ _ st)|]. apply fine_get. intros s2 Hs2.
      match goal with |- context [negb (?e =? 0)] => generalize e; intros sg'; destruct (negb (sg' =? 0)) end.
      - eapply fine_ext; [intros st; exact (bind_assoc _ _ _ st)|]. apply fine_bind; [sstep|]. intros _. eapply fine_ext; [intros st; exact (bind_assoc _ _ _ st)|].
        apply fine_unit; [intros h Hh Hi; eapply may_cont; eauto; now rewrite Hh|]. intros st HJ. unfold gbind, gmodify. apply (Hg ((CCont id sg', AUnit) :: F)); [intros x Hx; now right|].
        destruct HJ as (h & G1 & G2 & G3 & G4 & G5). exists h. rewrite del_last_hist. repeat split; auto. unfold del_last. destruct (dmem _ _ _); exact G5.
      - apply fine_unit; [intros h Hh Hi; eapply may_cont; eauto; now rewrite Hh|]. apply Hg. intros x Hx; now right. }
    apply Hc. intros F' HF'. apply (IH F' (HF' _ HF) (id :: R)); [intros x Hx; apply Hl; now right| |].
    - intros G. destruct (Hn G) as [G1 G2]. inversion G1; subst. split; [assumption|]. intros x Hx [<-|Hx']; [contradiction|]. apply (G2 x); [now right|exact Hx'].
    - intros R' F'' Hi. apply Hf. intros x Hx. auto.
  Qed.
  Lemma fine_cont s : is_cont k -> fine [] [] (gdb_cont p env s).
  Proof.
    intros Hk. unfold gdb_cont. apply fine_procs; [law|]. intros l. refine (cont_loop_fine s l _ _ Hk _ l _ _ _ _).
    - now left.
    - intros x Hx. exact Hx.
    - intros Hn. split; [exact Hn|]. intros id _ [].
    - intros R F _. apply fine_bind; [apply stay_event; [reflexivity|]; intros; now apply may_wait|]. intros []; try apply fine_raise.
      destruct (signum =? SIGTRAP).
      + apply fine_get. intros s1 Hs1. apply fine_bind; [apply stay_int; [reflexivity|law]|]. intros ip. apply fine_obj; [law|]. intros [bp|]; [|apply stay_fine; sstep].
        apply fine_bind; [sstep|]. intros _. apply fine_unit; [|apply stay_fine; sstep]. intros h _ Hh. eapply may_hit; [exact Hk|]. rewrite <- Hs1. apply Hh. now left.
      + apply idle_fine, idle_bind; [apply idle_processSignal|intros; apply idle_ret].
  Qed.
  Lemma fine_signal t : is_cont k -> fine [] [] (gdb_signal p ns eval env t).
  Proof.
    intros Hk. unfold gdb_signal. apply fine_or; [unfold parseSignum; repeat sstep|]. intros s. apply fine_get. intros s1 Hs1. apply fine_then.
    - apply fine_try; [now apply fine_cont|]. intros x. apply idle_bind; [apply idle_modify, del_last_hist|intros; apply idle_raise].
    - intros m. apply idle_bind; [apply idle_modify, del_last_hist|intros; apply idle_ret].
  Qed.
  (** step *)
  Lemma stay_step_wait_bp R F a size bp : is_step k -> In (CCreateBreakpoint cur a size, AObj (Some bp)) F -> stay R F (step_wait env (Some bp)).
  Proof.
    intros Hk HF. unfold step_wait. apply stay_get. intros s Hs. apply stay_try.
    - apply stay_bind; [apply stay_event; [reflexivity|]; intros; rewrite Hs; now apply may_run_wait|]. intros _. apply stay_bind; [apply stay_unit; [reflexivity|]; intros; eapply may_untrap; eauto|]. intros. sstep.
    - intros x. apply stay_bind; [apply stay_unit; [reflexivity|]; intros; eapply may_untrap; eauto|]. intros. sstep.
  Qed.
  Lemma fine_step_over a : is_step k -> fine [] [] (bp <-- step_break dis env a; step_wait env (Some bp)).
  Proof.
    intros Hk. unfold step_break. eapply fine_ext; [intros st; exact (bind_assoc _ _ _ st)|]. apply fine_bind; [apply stay_instrSize|]. intros size.
    eapply fine_ext; [intros st; exact (bind_assoc _ _ _ st)|]. apply fine_get. intros s Hs. rewrite Hs. eapply fine_ext; [intros st; exact (bind_assoc _ _ _ st)|].
    apply fine_new; [intros; now apply may_trap|]. intros bp. eapply fine_ext; [intros st; exact (bind_assoc _ _ _ st)|]. apply fine_unit; [intros; now apply may_run|].
    apply stay_fine. intros st HJ. unfold gbind, gret. eapply stay_step_wait_bp; [exact Hk| |exact HJ]. right. left. reflexivity.
  Qed.
  Lemma fine_step a : is_step k -> fine [] [] (step p dis env false a).
  Proof.
    intros Hk. unfold step. apply fine_bind; [destruct a; [sstep|apply stay_displayInstr]|]. intros _. cbn [negb]. destruct a as [a|]; [now apply fine_step_over|].
    apply fine_get. intros s Hs. apply fine_bind; [sstep|]. intros ip. apply fine_bind; [apply stay_instrSize|]. intros [n|]; [|apply stay_fine; sstep]. destruct (n =? 0); [apply stay_fine; sstep|]. now apply fine_step_over.
  Qed.
  Lemma fine_stepi : k = KStepi -> fine [] [] (step p dis env true None).
  Proof.
    intros Hk. unfold step. apply fine_bind; [apply stay_displayInstr|]. intros _. cbn [negb]. apply fine_get. intros s Hs. rewrite Hs. apply fine_unit; [intros; rewrite Hk; now apply may_stepi|].
    apply stay_fine. unfold step_wait. apply stay_get. intros s1 Hs1. apply stay_try; [|intros; sstep]. apply stay_bind; [|intros; sstep]. apply stay_event; [reflexivity|]. intros. rewrite Hs1, Hk. apply may_stepi_wait.
  Qed.
  Lemma idle_get {A} (f : gstate -> GM A) : (forall s, idle (f s)) -> idle (gbind gget f).
  Proof. intros Hf. apply idle_bind; [intros st H; exact H|exact Hf]. Qed.
  Lemma fine_until t : k = KUntil t -> fine [] [] (until p dis eval env t).
  Proof.
    intros Hk. assert (is_step k) as Hs by now rewrite Hk. unfold until. apply fine_or; [sstep|]. intros a st HJ. pose proof (fine_step (Some a) Hs st HJ) as HW.
    pose proof (same_step (fun st => g_process st) (fun c a st => eq_refl) p dis env false (Some a) st) as Hp.
    unfold gbind at 1. destruct (step p dis env false (Some a) st) as [st1 [[m|]|x]]; cbn [fst] in *; try exact HW.
    destruct HW as (h & H1 & H2). apply (stay_fine (resumed h) [] (_ <-- displayInstr dis env (T "Current"); gret None)).
    - apply stay_bind; [apply stay_displayInstr|intros; sstep].
    - exists h. repeat split; auto; [intros x []|]. rewrite Hp. now destruct HJ as (? & _ & _ & _ & _ & G).
  Qed.
  Lemma fine_gcore : fine [] [] (none (gcore env)).
  Proof.
    unfold none, gcore. eapply fine_ext; [intros st; exact (bind_assoc _ _ _ st)|]. apply fine_get. intros s Hs. rewrite Hs.
    eapply fine_ext; [intros st; exact (bind_assoc _ _ _ st)|]. apply fine_bind; [sstep|]. intros pid. cbv zeta.
    eapply fine_ext; [intros st; exact (bind_assoc _ _ _ st)|]. apply fine_bind; [unfold py_open; repeat sstep|]. intros _.
    eapply fine_ext; [intros st; exact (bind_assoc _ _ _ st)|]. unfold py_open at 1. cbn [Z.eqb]. eapply fine_ext; [intros st; exact (bind_assoc _ _ _ st)|]. apply fine_bind; [sstep|]. intros _.
    replace (true && negb (char_in (T "r") "b"%char)) with true by reflexivity. intros st HJ. cbn. eapply J_W, HJ.
  Qed.
  Lemma fine_sys : k = KSys -> fine [] [] (syscallTrace env).
  Proof.
    intros Hk. unfold syscallTrace. apply fine_get. intros s Hs. rewrite Hs. apply fine_unit; [intros; rewrite Hk; now apply may_sys|].
    apply stay_fine. apply stay_bind; [apply stay_event; [reflexivity|]; intros; rewrite Hk; apply may_sys_wait|]. intros _.
    apply stay_bind; [apply stay_ask; [reflexivity|]; intros; rewrite Hk; apply may_sys_show|]. intros []; repeat sstep.
  Qed.
  Lemma fine_set t : k = KSet t -> fine [] [] (set_ p eval env t).
  Proof.
    intros Hk. apply stay_fine. unfold set_. repeat first [match goal with |- stay _ _ (ask_unit _ (CSetReg ?i _ _)) => apply stay_unit; [reflexivity|intros; rewrite Hk; replace i with cur by congruence; apply may_set] end|sstep].
  Qed.
  Lemma fine_break t : k = KBreak t -> fine [] [] (breakpoint p dis eval env t).
  Proof.
    intros Hk. apply stay_fine. unfold breakpoint. repeat first [apply stay_instrSize|match goal with |- stay _ _ (ask_new _ (CCreateBreakpoint ?i _ _)) => apply stay_new; [reflexivity|intros; rewrite Hk; replace i with cur by congruence; apply may_break] end|sstep].
  Qed.
  Lemma fine_delete t : k = KDelete t -> fine [] [] (delete p eval env t).
  Proof.
    intros Hk. unfold delete. apply fine_or; [sstep|]. intros a. apply fine_get. intros s Hs. rewrite Hs. apply fine_obj; [law|]. intros [bp|]; [|apply stay_fine; sstep].
    apply stay_fine. apply stay_bind; [|intros; repeat sstep]. apply stay_unit; [reflexivity|]. intros h _ Hh. rewrite Hk. eapply may_delete. apply Hh. now left.
  Qed.
  Lemma fine_follow t : k = KFollow t -> fine [] [] (addFollowTerm env t).
  Proof.
    intros Hk. unfold addFollowTerm. apply fine_bind; [apply stay_bytes; [reflexivity|]; intros; rewrite Hk; apply may_eval|]. intros term. apply idle_fine, idle_bind; [apply idle_modify; reflexivity|intros; apply idle_ret].
  Qed.
  Lemma fine_run : fine [] [] (run p ns dis eval env k).
  Proof.
    destruct k eqn:Hk; cbn [run];
      try (apply fine_cont; now rewrite Hk); try (apply fine_signal; now rewrite Hk); try (apply fine_step; now rewrite Hk);
      try (apply fine_stepi; exact Hk); try (apply fine_until; exact Hk); try exact fine_gcore; try (apply fine_sys; exact Hk); try (apply fine_set; exact Hk); try (apply fine_break; exact Hk);
      try (apply fine_delete; exact Hk); try (apply fine_follow; exact Hk); try apply fine_switch; try solve [apply idle_fine; unfold none; apply idle_bind; [apply idle_modify; reflexivity|intros; apply idle_ret]]; try (apply fine_attach; exact Hk);
      try (apply stay_fine; try (apply stay_bind; [exact (stay_help [] [])|intros; apply stay_ret]); unfold dump, none, where_, displaySignals, print_, procList; repeat first [apply stay_hexdump|apply stay_breakpoints|sstep]).
  Qed.
End Effect.

Lemma run_lawful p ns dis eval env k st : exists h, g_hist (fst (run p ns dis eval env k st)) = h ++ g_hist st /\ lawful (g_process st) k h.
Proof. apply (fine_run p ns dis eval env (g_process st) k (g_hist st)). exists []. repeat split; auto. intros x []. Qed.
