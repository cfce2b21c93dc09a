From Coq Require Import ZArith List Ascii String Bool Lia Arith.
From Verif Require ArgModel.
From Verif Require Import PyBase PyFacts PyInt Platform IntModel ToolsModel SigModel DbgModel MapModel TraceModel PyEval ExprModel ProcProofs2 GdbModel GdbSpec GdbProofs GdbProofs2 GdbProofs4 GdbProofs5 GdbCmdSpec GdbCmdProofs.
Import ListNotations.
Open Scope Z_scope.

(** ** help *)
Definition known (c : command) : bool := match c with KUnknown _ => false | _ => true end.
Lemma help_does p ns dis eval env st :
  does (run p ns dis eval env (dispatch (T "help"))) st
    (map (fun c => says (fst c ++ T ": " ++ snd c)) COMMANDS ++
     [says []; says (T "Value can be an hexadecimal/decimal number or a register name ($reg)");
      says (T "You can use operators a+b, a-b, a*b, a/b, a<<b, a>>b, a**b, and parenthesis in expressions");
      says (T "Use "";"" to write multiple commands on the same line (e.g. ""step; print $eax"")")]) (Ret None).
Proof.
  apply does_none. unfold help. eapply does_bind.
  { eapply does_app; [apply (does_iter _ (fun c => [says (fst c ++ T ": " ++ snd c)])); intros; apply does_log|]. apply flat_lines. }
  intros st1 _. change (?a :: ?b :: ?c) with ([a] ++ b :: c). eapply does_bind; [apply does_log|]. intros st2 _.
  change (?a :: ?b :: ?c) with ([a] ++ b :: c). eapply does_bind; [apply does_log|]. intros st3 _.
  change (?a :: ?b :: ?c) with ([a] ++ b :: c). eapply does_bind; [apply does_log|]. intros st4 _. apply does_log.
Qed.
Lemma help_table : COMMANDS = map (fun c => (T (fst c), T (snd c))) help_texts.
Proof. vm_compute. reflexivity. Qed.
Definition listed_ok (w : text) : bool := text_eqb w (T "quit") || known (dispatch w) || known (dispatch (w ++ T " 1")).
Lemma listed_all : forallb (fun c => listed_ok (fst c)) COMMANDS = true.
Proof. vm_compute. reflexivity. Qed.
Lemma help_understood c : In c COMMANDS -> fst c = T "quit" \/ (forall t, dispatch (fst c) <> KUnknown t) \/ (forall t, dispatch (fst c ++ T " 1") <> KUnknown t).
Proof.
  intros H. pose proof (proj1 (forallb_forall _ _) listed_all _ H) as E. unfold listed_ok in E. apply orb_prop in E as [E|E]; [apply orb_prop in E as [E|E]|].
  - left. now apply text_eqb_eq.
  - right; left. intros t Et. now rewrite Et in E.
  - right; right. intros t Et. now rewrite Et in E.
Qed.
Definition in_list (w : text) : bool := existsb (fun c => starts_with (fst c) w) COMMANDS.
Lemma words_listed : forallb in_list words = true /\ forallb in_list prefixes = true.
Proof. vm_compute. auto. Qed.
Lemma starts_trans a b c : starts_with a b = true -> starts_with b c = true -> starts_with a c = true.
Proof. rewrite !starts_with_spec. intros (x & ->) (y & ->). exists (x ++ y). now rewrite app_assoc. Qed.
Lemma starts_refl a : starts_with a a = true.
Proof. rewrite starts_with_spec. exists []. now rewrite app_nil_r. Qed.
Lemma understood_listed c : (forall t, dispatch c <> KUnknown t) -> exists x, In x COMMANDS /\ starts_with (fst x) c = true.
Proof.
  intros H. destruct words_listed as [Hw Hp].
  assert (In c words \/ exists w, In w prefixes /\ starts_with w c = true) as [Hc|(w & Hc & E)].
  { destruct (existsb (text_eqb c) words) eqn:Ew.
    - left. apply existsb_exists in Ew as (w & Hi & E). apply text_eqb_eq in E. now subst.
    - destruct (existsb (fun w => starts_with w c) prefixes) eqn:Ep; [right; now apply existsb_exists|]. exfalso. apply (H c). apply dispatch_unknown.
      + intros Hi. assert (existsb (text_eqb c) words = true) as E by (apply existsb_exists; exists c; split; [exact Hi|apply text_eqb_refl]). congruence.
      + intros w Hi. destruct (starts_with w c) eqn:E; [|reflexivity]. assert (existsb (fun w => starts_with w c) prefixes = true) as E' by (apply existsb_exists; eauto). congruence. }
  - rewrite forallb_forall in Hw. apply Hw in Hc. apply existsb_exists in Hc as (x & Hi & E). eauto.
  - rewrite forallb_forall in Hp. apply Hp in Hc. apply existsb_exists in Hc as (x & Hi & E'). exists x. split; [exact Hi|]. eapply starts_trans; eassumption.
Qed.
Lemma help_once : NoDup (map fst COMMANDS).
Proof.
  assert (forall l : list text, (fix nd l := match l with [] => true | x :: l => negb (existsb (text_eqb x) l) && nd l end) l = true -> NoDup l) as G.
  { induction l as [|x l IH]; intros H; [constructor|]. apply andb_prop in H as [H1 H2]. constructor; [|now apply IH]. intros Hi. apply negb_true_iff in H1. assert (existsb (text_eqb x) l = true) as E by (apply existsb_exists; exists x; split; [exact Hi|apply text_eqb_refl]). congruence. }
  apply G. vm_compute. reflexivity.
Qed.

(** ** Messages *)
Lemma unknown_message p ns dis eval env c st : ~ In c words -> (forall w, In w prefixes -> starts_with w c = false) ->
  execute p ns dis eval env c st = (push (CLog (LErrmsg (MText (T "Unknown command: " ++ ArgModel.repr_ascii c)))) AUnit st, Ret false).
Proof. intros H1 H2. unfold execute. rewrite (dispatch_unknown _ H1 H2). reflexivity. Qed.
Lemma split1_none c s : ~ In c s -> split1 c s = None.
Proof.
  induction s as [|x s IH]; intros H; [reflexivity|]. cbn [split1]. destruct (Ascii.eqb_spec x c) as [->|Hx]; [exfalso; apply H; now left|]. rewrite IH by (intros Hi; apply H; now right). reflexivity.
Qed.
Lemma set_invalid p ns dis eval env t st : ~ In "="%char t ->
  does (run p ns dis eval env (dispatch (T "set " ++ t))) st [] (Ret (Some (MText (T "Invalid command: " ++ ArgModel.repr_ascii (T "set " ++ t))))).
Proof. intros H. change (does (set_ p eval env t) st [] (Ret (Some (MText (T "Invalid command: " ++ ArgModel.repr_ascii (T "set " ++ t)))))). unfold set_. rewrite split1_none by exact H. apply does_ret. Qed.
Lemma set_unable p ns dis eval env key value v st : ~ In "="%char key -> parse p eval env st value = Ok v -> forall name, lower (strip key) = T "$" ++ name ->
  answers env (CSetReg (g_process st) name v) (ARaise (XErr EProcessError)) ->
  does (run p ns dis eval env (dispatch (T "set " ++ key ++ T "=" ++ value))) st [(CSetReg (g_process st) name v, ARaise (XErr EProcessError))] (Ret (Some (MUnset name v EProcessError))).
Proof.
  intros Hk Hp name Hn H. change (does (set_ p eval env (key ++ T "=" ++ value)) st [(CSetReg (g_process st) name v, ARaise (XErr EProcessError))] (Ret (Some (MUnset name v EProcessError)))).
  unfold set_. change (T "=" ++ value) with ("="%char :: value). rewrite split_eq by exact Hk. cbv zeta. rewrite Hn. change (starts_with (T "$") (T "$" ++ name)) with true. cbn [negb].
  eapply does_parse; [exact Hp|]. eexists. split.
  - unfold gbind at 1, gget. change (skipn 1 (T "$" ++ name)) with name. unfold gbind at 1, gtry, gbind at 1, ask_unit, gbind, ask. rewrite !H. reflexivity.
  - repeat split.
Qed.

(** ** gcore *)
Lemma pid_text pid : removelast (last (split_char "#"%char (T "<PtraceProcess #" ++ str_int pid ++ T ">")) []) = str_int pid.
Proof.
  change (T "<PtraceProcess #" ++ str_int pid ++ T ">") with (T "<PtraceProcess " ++ "#"%char :: (str_int pid ++ T ">")).
  rewrite split_char_app by (cbn; intros H; repeat destruct H as [H|H]; try discriminate H; exact H).
  rewrite split_char_none by (intros H; apply in_app_or in H as [H|H]; [now apply (not_in_int "#"%char pid eq_refl)|destruct H as [H|[]]; discriminate H]).
  cbn [last]. apply removelast_last.
Qed.
Lemma does_stop {A B} (m : GM A) (f : A -> GM B) st l x : does m st l (Raise x) -> does (gbind m f) st l (Raise x).
Proof. intros (st' & E & H). exists st'. unfold gbind. rewrite E. auto. Qed.
Lemma does_raise {A} x st : does (@graise A x) st [] (Raise x).
Proof. exists st. repeat split. Qed.
Lemma open_does env path mode b st : answers env (COpen path mode) AUnit -> (b =? 0) && negb (char_in mode "b"%char) = false -> does (py_open env path mode b) st [(COpen path mode, AUnit)] (Ret tt).
Proof. intros H Hb. unfold py_open. eapply does_app; [eapply does_bind; [now apply does_unit|]|]. { intros st' _. rewrite Hb. apply does_ret. } reflexivity. Qed.
Lemma open_refused env path mode b st : answers env (COpen path mode) AUnit -> (b =? 0) && negb (char_in mode "b"%char) = true -> does (py_open env path mode b) st [(COpen path mode, AUnit)] (Raise (XErr EValueError)).
Proof. intros H Hb. unfold py_open. eapply does_app; [eapply does_bind; [now apply does_unit|]|]. { intros st' _. rewrite Hb. apply does_raise. } reflexivity. Qed.
Lemma gcore_does p ns dis eval env st pid : answers env (CPid (g_process st)) (AInt pid) ->
  answers env (COpen (T "/proc/" ++ str_int pid ++ T "/maps") (T "r")) AUnit -> answers env (COpen (T "/proc/" ++ str_int pid ++ T "/mem") (T "r")) AUnit ->
  does (run p ns dis eval env (dispatch (T "gcore"))) st
    [(CPid (g_process st), AInt pid); (COpen (T "/proc/" ++ str_int pid ++ T "/maps") (T "r"), AUnit); (COpen (T "/proc/" ++ str_int pid ++ T "/mem") (T "r"), AUnit)]
    (Raise (XErr EValueError)).
Proof.
  intros H1 H2 H3. change (does (none (gcore env)) st [(CPid (g_process st), AInt pid); (COpen (T "/proc/" ++ str_int pid ++ T "/maps") (T "r"), AUnit); (COpen (T "/proc/" ++ str_int pid ++ T "/mem") (T "r"), AUnit)] (Raise (XErr EValueError))).
  unfold none. apply does_stop. unfold gcore. apply does_get. cbv zeta. change (?a :: ?b :: ?c) with ([a] ++ b :: c). eapply does_bind; [now apply does_int|]. intros st1 _. rewrite pid_text.
  change (?a :: ?b :: ?c) with ([a] ++ b :: c). eapply does_bind; [now apply open_does|]. intros st2 _. apply does_stop. now apply open_refused.
Qed.
(** Whatever the environment answers: an exception is raised, and no file is opened for writing. *)
Definition reads_only (x : gcall * ans) : Prop := match fst x with COpen _ mode => mode = T "r" | _ => True end.
Definition calls_only {A} (m : GM A) : Prop := forall st, exists new, g_hist (fst (m st)) = new ++ g_hist st /\ Forall reads_only new.
Lemma only_bind {A B} (m : GM A) (f : A -> GM B) : calls_only m -> (forall a, calls_only (f a)) -> calls_only (gbind m f).
Proof.
  intros Hm Hf st. unfold gbind. destruct (Hm st) as (n1 & E1 & F1). destruct (m st) as [st1 [a|x]]; cbn [fst] in *; [|eauto]. destruct (Hf a st1) as (n2 & E2 & F2). exists (n2 ++ n1). rewrite E2, E1, app_assoc. split; [reflexivity|]. apply Forall_app. auto.
Qed.
Lemma only_pure {A} (o : gstate -> out A) : calls_only (fun st => (st, o st)).
Proof. intros st. exists []. split; [reflexivity|constructor]. Qed.
Lemma only_ask env c : (match c with COpen _ mode => mode = T "r" | _ => True end) -> calls_only (ask env c).
Proof. intros Hc st. unfold ask. cbn [fst]. exists [(c, env (g_hist st) c)]. split; [reflexivity|]. constructor; [exact Hc|constructor]. Qed.
Definition fails {A} (m : GM A) : Prop := forall st, exists x, snd (m st) = Raise x.
Lemma fails_bind {A B} (m : GM A) (f : A -> GM B) : (forall a, fails (f a)) -> fails (gbind m f).
Proof. intros H st. unfold gbind. destruct (m st) as [st1 [a|x]]; [apply H|]. cbn. eauto. Qed.
Lemma fails_first {A B} (m : GM A) (f : A -> GM B) : fails m -> fails (gbind m f).
Proof. intros H st. unfold gbind. destruct (H st) as (x & E). destruct (m st) as [st1 [a|y]]; cbn in *; [discriminate|]. eauto. Qed.
Lemma fails_only {A B} (m : GM A) (f : A -> GM B) : fails m -> calls_only m -> calls_only (gbind m f).
Proof. intros H Ho st. unfold gbind. destruct (H st) as (x & E), (Ho st) as (n & E1 & F). destruct (m st) as [st1 [a|y]]; cbn in *; [discriminate|]. eauto. Qed.
Lemma refused_fails env path : fails (py_open env path (T "r") 0).
Proof. unfold py_open. apply fails_bind. intros [] st. eexists. reflexivity. Qed.
Lemma only_open env path b : calls_only (py_open env path (T "r") b).
Proof.
  unfold py_open. apply only_bind; [unfold ask_unit; apply only_bind; [apply only_ask; reflexivity|intros []; apply only_pure]|]. intros _. match goal with |- calls_only (if ?b then _ else _) => destruct b end; apply only_pure.
Qed.
Lemma gcore_fails env : fails (gcore env).
Proof. unfold gcore. apply fails_bind. intros s. cbv zeta. apply fails_bind. intros pid. apply fails_bind. intros _. apply fails_first. apply refused_fails. Qed.
Lemma gcore_only env : calls_only (gcore env).
Proof.
  unfold gcore. apply only_bind; [apply only_pure|]. intros s. cbv zeta. apply only_bind; [unfold ask_int; apply only_bind; [now apply only_ask|intros []; apply only_pure]|]. intros pid.
  apply only_bind; [apply only_open|]. intros _. apply fails_only; [apply refused_fails|apply only_open].
Qed.
Lemma gcore_never env st : (exists x, snd (gcore env st) = Raise x) /\ exists new, g_hist (fst (gcore env st)) = new ++ g_hist st /\ forall path mode a, In (COpen path mode, a) new -> mode = T "r".
Proof.
  split; [apply gcore_fails|]. destruct (gcore_only env st) as (new & E & F). exists new. split; [exact E|]. intros path mode a H. rewrite Forall_forall in F. exact (F _ H).
Qed.

(** ** Exceptions *)
Lemma handle_other env e st : e <> EKeyboardInterrupt -> is_ptrace_error e = false -> handle env (XErr e) st = (st, Raise (XErr e)).
Proof. intros H1 H2. destruct e; try congruence; cbn [handle]; rewrite ?H2; try reflexivity; discriminate H2. Qed.
Lemma handle_ptrace env e st : is_ptrace_error e = true -> e <> EPtraceError (Some ESRCH) -> handle env (XErr e) st = (push (CLog (LPtraceError e)) AUnit st, Ret tt).
Proof.
  intros H1 H2. destruct e; try discriminate H1; try reflexivity. destruct errno as [n|]; [|reflexivity]. cbn [handle is_ptrace_error]. unfold gbind at 1, glog. destruct (Z.eqb_spec n ESRCH) as [->|]; [congruence|reflexivity].
Qed.
Lemma line_goes_on p ns dis eval env t st before c after st1 st2 e : t <> T "quit" -> split_char ";"%char t = before ++ c :: after ->
  succeed (execute p ns dis eval env) before (set_previous None st) st1 -> execute p ns dis eval env (strip c) st1 = (st2, Raise (XErr e)) ->
  is_ptrace_error e = true -> e <> EPtraceError (Some ESRCH) ->
  run_line p ns dis eval env t st = (push (CLog (LPtraceError e)) AUnit (push (CLog (LCommandError (XErr e))) AUnit st2), Ret false).
Proof.
  intros Hq E H1 H2 Hp He. rewrite (line_raise _ _ _ _ _ _ _ _ _ _ _ _ _ Hq E H1 H2). assert (is_exception (XErr e) = true) as -> by (destruct e; try discriminate Hp; reflexivity).
  unfold gbind. rewrite handle_ptrace by assumption. reflexivity.
Qed.
Lemma line_ends p ns dis eval env t st before c after st1 st2 e : t <> T "quit" -> split_char ";"%char t = before ++ c :: after ->
  succeed (execute p ns dis eval env) before (set_previous None st) st1 -> execute p ns dis eval env (strip c) st1 = (st2, Raise (XErr e)) ->
  is_ptrace_error e = false -> e <> EKeyboardInterrupt ->
  exists st3, run_line p ns dis eval env t st = (st3, Raise (XErr e)) /\ same st2 st3.
Proof.
  intros Hq E H1 H2 Hp He. rewrite (line_raise _ _ _ _ _ _ _ _ _ _ _ _ _ Hq E H1 H2). unfold gbind. rewrite handle_other by assumption. eexists. split; [reflexivity|]. destruct (is_exception (XErr e)); repeat split.
Qed.
