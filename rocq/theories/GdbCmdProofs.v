From Coq Require Import ZArith List Ascii String Bool Lia Arith Permutation.
From Verif Require Import PyBase PyFacts PyInt PyIntFacts Platform IntModel IntProofs ToolsModel SigModel DbgModel MapModel TraceModel PyEval ExprModel CallProofs ExprProofs GdbModel GdbSpec GdbProofs GdbProofs2 GdbCmdSpec.
Import ListNotations.
Open Scope Z_scope.

Section Commands.
  Context (p : platform) (ns : namespace) (dis : bool) (eval : text -> res pyval) (env : list (gcall * ans) -> gcall -> ans).
  Notation parse := (parse p eval env).
  Notation run := (run p ns dis eval env).
  Notation answers := (answers env).
  Notation parse_list := (parse_list p eval env).
  (** ** Building blocks *)
  Lemma does_ret {A} (a : A) st : does (gret a) st [] (Ret a).
  Proof. exists st. repeat split. Qed.
  Lemma does_ask c a st : answers c a -> (forall x, a <> ARaise x) -> does (ask env c) st [(c, a)] (Ret a).
  Proof. intros H Ha. exists (push c a st). unfold ask. cbv zeta. rewrite H. split; [destruct a; try reflexivity; congruence|]. repeat split. Qed.
  Lemma does_log l st : does (glog l) st [line l] (Ret tt).
  Proof. eexists. split; [reflexivity|]. repeat split. Qed.
  Lemma does_bind {A B} (m : GM A) (f : A -> GM B) st l1 l2 a r :
    does m st l1 (Ret a) -> (forall st', same st st' -> does (f a) st' l2 r) -> does (gbind m f) st (l1 ++ l2) r.
  Proof.
    intros (st1 & E1 & H1 & S1) H2. destruct (H2 st1 S1) as (st2 & E2 & H3 & S2). exists st2. unfold gbind. rewrite E1. split; [exact E2|]. split; [rewrite H3, H1, rev_app_distr, app_assoc; reflexivity|].
    destruct S1 as (A1 & A2 & A3 & A4), S2 as (B1 & B2 & B3 & B4). repeat split; congruence.
  Qed.
  Lemma does_get {B} (f : gstate -> GM B) st l r : does (f st) st l r -> does (gbind gget f) st l r.
  Proof. intros H. exact H. Qed.
  Lemma does_unit c st : answers c AUnit -> does (ask_unit env c) st [(c, AUnit)] (Ret tt).
  Proof. intros H. exists (push c AUnit st). unfold ask_unit, gbind, ask. cbv zeta. rewrite !H. split; [reflexivity|repeat split]. Qed.
  Lemma does_int c z st : answers c (AInt z) -> does (ask_int env c) st [(c, AInt z)] (Ret z).
  Proof. intros H. exists (push c (AInt z) st). unfold ask_int, gbind, ask. cbv zeta. rewrite !H. split; [reflexivity|repeat split]. Qed.
  Lemma does_obj c o st : answers c (AObj o) -> does (ask_obj env c) st [(c, AObj o)] (Ret o).
  Proof. intros H. exists (push c (AObj o) st). unfold ask_obj, gbind, ask. cbv zeta. rewrite !H. split; [reflexivity|repeat split]. Qed.
  Lemma does_new c o st : answers c (AObj (Some o)) -> does (ask_new env c) st [(c, AObj (Some o))] (Ret o).
  Proof. intros H. exists (push c (AObj (Some o)) st). unfold ask_new, gbind, ask. cbv zeta. rewrite !H. split; [reflexivity|repeat split]. Qed.
  Lemma does_event c e st : answers c (AEvent e) -> does (ask_event env c) st [(c, AEvent e)] (Ret e).
  Proof. intros H. exists (push c (AEvent e) st). unfold ask_event, gbind, ask. cbv zeta. rewrite !H. split; [reflexivity|repeat split]. Qed.
  Lemma does_procs c l st : answers c (AProcs l) -> does (ask_procs env c) st [(c, AProcs l)] (Ret l).
  Proof. intros H. exists (push c (AProcs l) st). unfold ask_procs, gbind, ask. cbv zeta. rewrite !H. split; [reflexivity|repeat split]. Qed.
  Lemma does_maps c l st : answers c (AMaps l) -> does (ask_maps env c) st [(c, AMaps l)] (Ret l).
  Proof. intros H. exists (push c (AMaps l) st). unfold ask_maps, gbind, ask. cbv zeta. rewrite !H. split; [reflexivity|repeat split]. Qed.
  Lemma does_try {A} (m : GM A) h st l a : does m st l (Ret a) -> does (gtry m h) st l (Ret a).
  Proof. intros (st' & E & H). exists st'. unfold gtry. rewrite E. auto. Qed.
  Lemma does_parse (f : Z -> GM (option emsg)) t v st l (r : out (option emsg)) : parse st t = Ok v -> does (f v) st l r -> does (or_message (g_parseInteger p eval env t) f) st l r.
  Proof. intros H (st' & E & H'). exists st'. erewrite or_message_ok by (rewrite parse_run, H; reflexivity). auto. Qed.
  Lemma does_iter {A} (f : A -> GM unit) (g : A -> list (gcall * ans)) l : (forall x st, In x l -> does (f x) st (g x) (Ret tt)) -> forall st, does (giter f l) st (flat_map g l) (Ret tt).
  Proof.
    induction l as [|x l IH]; intros H st; cbn [giter flat_map]; [apply does_ret|]. eapply does_bind; [apply H; now left|]. intros st' _. apply IH. intros y st'' Hy. apply H. now right.
  Qed.
  Lemma does_app {A} (m : GM A) st l l' r : does m st l r -> l = l' -> does m st l' r.
  Proof. now intros H <-. Qed.
  Lemma does_none m st l : does m st l (Ret tt) -> does (none m) st l (Ret None).
  Proof. intros H. unfold none. eapply does_app; [eapply does_bind; [exact H|intros; apply does_ret]|now rewrite app_nil_r]. Qed.
  Lemma same_process st st' : same st st' -> g_process st' = g_process st.
  Proof. now intros []. Qed.

  (** ** The commands that show *)
  Lemma dump_does w st : In w shows -> answers (CDump (T w) (g_process st)) AUnit -> does (run (dispatch (T w))) st [(CDump (T w) (g_process st), AUnit)] (Ret None).
  Proof. intros Hw H. cbn [In shows] in Hw. repeat (destruct Hw as [<-|Hw]; [apply does_none; now apply does_unit|]). destruct Hw. Qed.
  Lemma where_does manage t st values : parse_list st t = Ok values ->
    answers (CDumpCode (g_process st) (nth_error values 0) (nth_error values 1) manage) AUnit ->
    does (where_ p eval env t manage) st [(CDumpCode (g_process st) (nth_error values 0) (nth_error values 1) manage, AUnit)] (Ret None).
  Proof.
    intros Hp H. unfold where_. exists (push (CDumpCode (g_process st) (nth_error values 0) (nth_error values 1) manage) AUnit st). split; [|repeat split].
    erewrite or_message_ok. 2:{ unfold g_parseIntegers, gbind, gget. unfold GdbCmdSpec.parse_list in Hp. rewrite Hp. reflexivity. }
    unfold gbind, gget, ask_unit, ask, gbind. cbv zeta. rewrite !H. reflexivity.
  Qed.
  Lemma where_line t st values : parse_list st t = Ok values ->
    answers (CDumpCode (g_process st) (nth_error values 0) (nth_error values 1) false) AUnit ->
    does (run (dispatch (T "where " ++ t))) st [(CDumpCode (g_process st) (nth_error values 0) (nth_error values 1) false, AUnit)] (Ret None).
  Proof. exact (where_does false t st values). Qed.
  Lemma where2_line t st values : parse_list st t = Ok values ->
    answers (CDumpCode (g_process st) (nth_error values 0) (nth_error values 1) true) AUnit ->
    does (run (dispatch (T "where2 " ++ t))) st [(CDumpCode (g_process st) (nth_error values 0) (nth_error values 1) true, AUnit)] (Ret None).
  Proof. exact (where_does true t st values). Qed.
  Lemma where_empty st : answers (CDumpCode (g_process st) None None false) AUnit -> does (run (dispatch (T "where"))) st [(CDumpCode (g_process st) None None false, AUnit)] (Ret None).
  Proof. exact (where_does false [] st [] eq_refl). Qed.
  Lemma where2_empty st : answers (CDumpCode (g_process st) None None true) AUnit -> does (run (dispatch (T "where2"))) st [(CDumpCode (g_process st) None None true, AUnit)] (Ret None).
  Proof. exact (where_does true [] st [] eq_refl). Qed.
  Lemma proclist_does st l : answers CProcesses (AProcs l) ->
    does (run (dispatch (T "proclist"))) st ((CProcesses, AProcs l) :: map (fun q => line (LProcess q (Nat.eqb (g_process st) q))) l) (Ret None).
  Proof.
    intros H. apply does_none. unfold procList. change (?a :: ?b) with ([a] ++ b). eapply does_bind; [now apply does_procs|]. intros st1 S1. rewrite <- (same_process _ _ S1).
    assert (forall st2, g_process st2 = g_process st1 -> does (giter (fun id => st <-- gget; glog (LProcess id (Nat.eqb (g_process st) id))) l) st2 (map (fun q => line (LProcess q (Nat.eqb (g_process st1) q))) l) (Ret tt)) as Hi; [|now apply Hi].
    clear H S1. induction l as [|q l IH]; intros st2 E; [apply does_ret|]. cbn [giter map]. change (?a :: ?b) with ([a] ++ b). eapply does_bind; [apply does_get; rewrite E; apply does_log|]. intros st3 S3. apply IH. rewrite (same_process _ _ S3). exact E.
  Qed.
  Lemma print_does t v st maps : parse st t = Ok v -> answers (CMappings (g_process st)) (AMaps maps) ->
    does (run (dispatch (T "print " ++ t))) st
      ([says (T "Decimal: " ++ str_int v); says (T "Hexadecimal: " ++ formatWordHex p v); (CMappings (g_process st), AMaps maps)] ++
       map (fun m => line (LMapping m)) (filter (fun m => map_contains m v) maps)) (Ret None).
  Proof.
    intros Hp H. apply does_parse with (v := v); [exact Hp|]. cbn [app]. change (?a :: ?b) with ([a] ++ b).
    eapply does_bind; [apply does_log|]. intros st1 S1. change (?a :: ?b) with ([a] ++ b). eapply does_bind; [apply does_log|]. intros st2 S2. apply does_get.
    rewrite (same_process _ _ S2), (same_process _ _ S1). change (?a :: ?b) with ([a] ++ b). eapply does_bind; [now apply does_maps|]. intros st3 _.
    rewrite <- (app_nil_r (map _ _)). eapply does_bind; [|intros; apply does_ret]. eapply does_app; [apply (does_iter _ (fun m => if map_contains m v then [line (LMapping m)] else []))|].
    - intros m st4 _. destruct (map_contains m v); [apply does_log|apply does_ret].
    - clear. induction maps as [|m maps IH]; [reflexivity|]. cbn [flat_map filter]. destruct (map_contains m v); cbn; now rewrite IH.
  Qed.
  Lemma flat_lines {A} (f : A -> gcall * ans) l : flat_map (fun x => [f x]) l = map f l.
  Proof. induction l as [|x l IH]; [reflexivity|]. cbn. now rewrite IH. Qed.
  Lemma forallb_cons_nil {A B} (f : A -> list B) q l : forallb (fun q => match f q with [] => true | _ => false end) (q :: l) = match f q with [] => forallb (fun q => match f q with [] => true | _ => false end) l | _ => false end.
  Proof. cbn. destruct (f q); reflexivity. Qed.
  Lemma breakpoints_does st l bps : answers CProcesses (AProcs l) -> (forall q, answers (CBreakpoints q) (AProcs (bps q))) ->
    does (run (dispatch (T "breakpoints"))) st
      ((CProcesses, AProcs l) :: flat_map (fun q => (CBreakpoints q, AProcs (bps q)) :: map (fun b => line (LBreakpoint q b)) (bps q)) l ++
       (if forallb (fun q => match bps q with [] => true | _ => false end) l then [says (T "(no breakpoint)")] else [])) (Ret None).
  Proof.
    intros H Hb. apply does_none. unfold displayBreakpoints. change (?a :: ?b) with ([a] ++ b). eapply does_bind; [now apply does_procs|]. intros st1 _. clear st H.
    set (loop := fix loop (l : list nat) (found : bool) : GM unit := _).
    assert (forall found st, does (loop l found) st (flat_map (fun q => (CBreakpoints q, AProcs (bps q)) :: map (fun b => line (LBreakpoint q b)) (bps q)) l ++
       (if negb found && forallb (fun q => match bps q with [] => true | _ => false end) l then [says (T "(no breakpoint)")] else [])) (Ret tt)) as Hl; [|apply (Hl false)].
    induction l as [|q l IH]; intros found st; [destruct found; [apply does_ret|apply does_log]|].
    change (loop (q :: l) found) with (bps <-- ask_procs env (CBreakpoints q); _ <-- giter (fun bp => glog (LBreakpoint q bp)) bps; loop l (found || match bps with [] => false | _ => true end)).
    cbn [flat_map]. rewrite <- app_assoc. cbn [app]. change (?a :: ?b) with ([a] ++ b). eapply does_bind; [apply does_procs; apply Hb|]. intros st2 _.
    eapply does_bind. { eapply does_app; [apply (does_iter _ (fun b => [line (LBreakpoint q b)])); intros; apply does_log|]. apply flat_lines. }
    intros st3 _. eapply does_app; [apply IH|]. f_equal. cbn [forallb]. destruct (bps q); cbn [andb orb negb]; rewrite ?orb_false_r, ?orb_true_r, ?andb_false_r; reflexivity.
  Qed.
  Lemma insert_perm x l : Permutation (x :: l) (insert_signal x l).
  Proof. induction l as [|y l IH]; [apply Permutation_refl|]. cbn [insert_signal]. destruct (fst x <=? fst y); [apply Permutation_refl|]. eapply perm_trans; [apply perm_swap|]. now constructor. Qed.
  Lemma insert_ascending x l : ascending l -> ascending (insert_signal x l).
  Proof.
    induction 1 as [|y l Hy Hl IH]; cbn [insert_signal]; [constructor; [intros ? []|constructor]|]. destruct (fst x <=? fst y) eqn:E; zb.
    - constructor; [|now constructor]. intros z [<-|Hz]; [exact E|]. specialize (Hy z Hz). lia.
    - constructor; [|exact IH]. intros z Hz. apply (Permutation_in z (Permutation_sym (insert_perm x l))) in Hz as [<-|Hz]; [lia|auto].
  Qed.
  Lemma signal_text x : 0 <= fst x -> padl 2 " "%char (str_int (fst x)) ++ T ": " ++ snd x = signal_line x.
  Proof.
    intros H. unfold signal_line. rewrite str_int_nonneg by exact H. destruct (fst x <? 10) eqn:E; zb.
    - assert (zlen (digits 10 (fst x)) = 1) as Hl. { pose proof (digits_length 10 (fst x) 1 ltac:(lia) H ltac:(lia) ltac:(lia)) as Hd. pose proof (digits_nonempty 10 (fst x)) as Hn. destruct (digits 10 (fst x)) as [|c r]; [congruence|]. rewrite zlen_cons in *. pose proof (zlen_nonneg r). lia. }
      destruct (digits 10 (fst x)) as [|c [|c' r]]; rewrite ?zlen_cons, ?zlen_nil in Hl; [lia|reflexivity|pose proof (zlen_nonneg r); lia].
    - assert (2 <= zlen (digits 10 (fst x))) as Hl.
      { destruct (Z_lt_le_dec (zlen (digits 10 (fst x))) 2) as [Hs|]; [exfalso|assumption]. pose proof (digits_read 10 (fst x) ltac:(lia) H) as Hr. pose proof (digits_nonempty 10 (fst x)) as Hn.
        destruct (digits 10 (fst x)) as [|c [|c' r]]; [congruence| |rewrite !zlen_cons in Hs; pose proof (zlen_nonneg r); lia]. cbn [read_digits] in Hr. destruct (digit_val c) as [d|]; [|discriminate]. destruct (d <? 10) eqn:Ed; [|discriminate]. zb. injection Hr as Hr. lia. }
      destruct (digits 10 (fst x)) as [|c [|c' r]]; rewrite ?zlen_cons, ?zlen_nil in Hl; try lia. reflexivity.
  Qed.
  Lemma signals_does st : (forall n name, In (n, name) (getSignalNames ns) -> 0 <= n) ->
    exists l, Permutation (getSignalNames ns) l /\ ascending l /\ does (run (dispatch (T "signals"))) st (map (fun x => says (signal_line x)) l) (Ret None).
  Proof.
    intros Hn. exists (fold_right insert_signal [] (getSignalNames ns)). assert (Permutation (getSignalNames ns) (fold_right insert_signal [] (getSignalNames ns))) as Hp.
    { induction (getSignalNames ns) as [|x l IH]; [constructor|]. cbn [fold_right]. eapply perm_trans; [|apply insert_perm]. constructor. apply IH. intros n name H. apply (Hn n name). now right. }
    split; [exact Hp|]. split; [induction (getSignalNames ns) as [|x l IH]; [constructor|]; cbn [fold_right]; apply insert_ascending, IH; [intros n name H; apply (Hn n name); now right|]|].
    { clear. induction l as [|x l IH]; [constructor|]. cbn [fold_right]. eapply perm_trans; [|apply insert_perm]. now constructor. }
    apply does_none. unfold displaySignals. eapply does_app; [apply (does_iter _ (fun x => [says (signal_line x)]))|apply flat_lines].
    intros x st' Hx. rewrite signal_text; [apply does_log|]. destruct x as [n name]. apply (Hn n name). eapply Permutation_in; [apply Permutation_sym; exact Hp|exact Hx].
  Qed.

  (** ** The commands that change the process *)
  Lemma split_eq key value : ~ In "="%char key -> split1 "="%char (key ++ "="%char :: value) = Some (key, value).
  Proof. intros H. apply split1_spec. auto. Qed.
  Lemma set_does key value v st : ~ In "="%char key -> parse st value = Ok v -> forall name, lower (strip key) = T "$" ++ name ->
    answers (CSetReg (g_process st) name v) AUnit ->
    does (run (dispatch (T "set " ++ key ++ T "=" ++ value))) st [(CSetReg (g_process st) name v, AUnit); says (T "Set $" ++ name ++ T " to " ++ str_int v)] (Ret None).
  Proof.
    intros Hk Hp name Hn H. change (does (set_ p eval env (key ++ T "=" ++ value)) st [(CSetReg (g_process st) name v, AUnit); says (T "Set $" ++ name ++ T " to " ++ str_int v)] (Ret None)).
    unfold set_. change (T "=" ++ value) with ("="%char :: value). rewrite split_eq by exact Hk. cbv zeta. rewrite Hn. change (starts_with (T "$") (T "$" ++ name)) with true. change (skipn 1 (T "$" ++ name)) with name. cbv iota beta delta [negb].
    apply does_parse with (v := v); [exact Hp|]. apply does_get. change ([?a; ?b]) with ([a] ++ [b]).
    eapply does_bind; [apply does_try; eapply does_app; [eapply does_bind; [now apply does_unit|intros; apply does_ret]|reflexivity]|]. intros st1 _. cbv beta iota.
    eapply does_app; [eapply does_bind; [apply does_log|intros; apply does_ret]|reflexivity].
  Qed.
  Lemma set_no_sign key value st : ~ In "="%char key -> starts_with (T "$") (lower (strip key)) = false ->
    does (run (dispatch (T "set " ++ key ++ T "=" ++ value))) st [] (Ret (Some (MText (T "Register name (" ++ lower (strip key) ++ T ") have to start with ""$""")))).
  Proof.
    intros Hk Hn. change (does (set_ p eval env (key ++ T "=" ++ value)) st [] (Ret (Some (MText (T "Register name (" ++ lower (strip key) ++ T ") have to start with ""$"""))))).
    unfold set_. change (T "=" ++ value) with ("="%char :: value). rewrite split_eq by exact Hk. cbv zeta. rewrite Hn. apply does_ret.
  Qed.
  Lemma delete_does t a st bp : parse st t = Ok a -> answers (CFindBreakpoint (g_process st) a) (AObj (Some bp)) -> answers (CDesinstall bp false) AUnit ->
    does (run (dispatch (T "delete " ++ t))) st [(CFindBreakpoint (g_process st) a, AObj (Some bp)); (CDesinstall bp false, AUnit); line (LDeleted bp)] (Ret None).
  Proof.
    intros Hp H1 H2. apply does_parse with (v := a); [exact Hp|]. apply does_get. change ([?a; ?b; ?c]) with ([a] ++ [b] ++ [c]).
    eapply does_bind; [now apply does_obj|]. intros st1 _. cbv beta iota. eapply does_bind; [now apply does_unit|]. intros st2 _. eapply does_app; [eapply does_bind; [apply does_log|intros; apply does_ret]|reflexivity].
  Qed.
  Lemma delete_none t a st : parse st t = Ok a -> answers (CFindBreakpoint (g_process st) a) (AObj None) ->
    does (run (dispatch (T "delete " ++ t))) st [(CFindBreakpoint (g_process st) a, AObj None)] (Ret (Some (MText (T "No breakpoint at " ++ formatAddress p a ++ T " ")))).
  Proof.
    intros Hp H1. apply does_parse with (v := a); [exact Hp|]. apply does_get. eapply does_app; [eapply does_bind; [now apply does_obj|intros; apply does_ret]|reflexivity].
  Qed.
  Lemma size_does a n st : (dis = true -> answers (CInstrSize (g_process st) a) (AInt n)) -> does (readInstrSize dis env a) st (asks_size dis st a (Some n)) (Ret (size_of dis n)).
  Proof.
    intros H. unfold readInstrSize, asks_size, size_of. destruct dis; [|apply does_ret]. cbn [negb]. apply does_get. unfold on_ptrace_error. apply does_try.
    eapply does_app; [eapply does_bind; [apply does_int; auto|intros; apply does_ret]|reflexivity].
  Qed.
  Lemma break_does t a n st bp : parse st t = Ok a -> (dis = true -> answers (CInstrSize (g_process st) a) (AInt n)) -> answers (CCreateBreakpoint (g_process st) a (size_of dis n)) (AObj (Some bp)) ->
    does (run (dispatch (T "break " ++ t))) st (asks_size dis st a (Some n) ++ [(CCreateBreakpoint (g_process st) a (size_of dis n), AObj (Some bp)); line (LNewBreakpoint bp)]) (Ret None).
  Proof.
    intros Hp Hs Hc. apply does_parse with (v := a); [exact Hp|]. eapply does_bind; [now apply size_does|]. intros st1 S1. apply does_get. rewrite (same_process _ _ S1). change ([?a; ?b]) with ([a] ++ [b]).
    eapply does_bind; [unfold on_ptrace_error; apply does_try; eapply does_app; [eapply does_bind; [now apply does_new|intros; apply does_ret]|reflexivity]|]. intros st2 _. cbv beta iota.
    eapply does_app; [eapply does_bind; [apply does_log|intros; apply does_ret]|reflexivity].
  Qed.
  Lemma break_fails t a n st e : parse st t = Ok a -> (dis = true -> answers (CInstrSize (g_process st) a) (AInt n)) -> answers (CCreateBreakpoint (g_process st) a (size_of dis n)) (ARaise (XErr e)) -> is_ptrace_error e = true ->
    does (run (dispatch (T "break " ++ t))) st (asks_size dis st a (Some n) ++ [(CCreateBreakpoint (g_process st) a (size_of dis n), ARaise (XErr e))]) (Ret (Some (MNoBreak a e))).
  Proof.
    intros Hp Hs Hc He. apply does_parse with (v := a); [exact Hp|]. eapply does_bind; [now apply size_does|]. intros st1 S1. apply does_get. rewrite (same_process _ _ S1).
    exists (push (CCreateBreakpoint (g_process st) a (size_of dis n)) (ARaise (XErr e)) st1). split; [|repeat split].
    unfold on_ptrace_error, ask_new, gtry, gbind, ask. cbv zeta. rewrite !Hc. rewrite He. reflexivity.
  Qed.
  Lemma step_to a n st bp ev : (dis = true -> answers (CInstrSize (g_process st) a) (AInt n)) -> answers (CCreateBreakpoint (g_process st) a (size_of dis n)) (AObj (Some bp)) ->
    answers (CCont (g_process st) 0) AUnit -> answers (CWait (g_process st) 5) (AEvent ev) -> answers (CDesinstall bp true) AUnit ->
    does (bp <-- step_break dis env a; step_wait env (Some bp)) st (runs_to dis st a n bp ev) (Ret None).
  Proof.
    intros Hs Hc H1 H2 H3. unfold runs_to.
    eapply does_app; [eapply (does_bind _ _ _ (asks_size dis st a (Some n) ++ [(CCreateBreakpoint (g_process st) a (size_of dis n), AObj (Some bp)); (CCont (g_process st) 0, AUnit)]) [(CWait (g_process st) 5, AEvent ev); (CDesinstall bp true, AUnit)])|now rewrite <- app_assoc].
    - unfold step_break. eapply does_bind; [now apply size_does|]. intros st1 S1. apply does_get. rewrite (same_process _ _ S1). change ([?a; ?b]) with ([a] ++ [b] ++ []).
      eapply does_bind; [now apply does_new|]. intros st2 S2. eapply does_bind; [now apply does_unit|]. intros; apply does_ret.
    - intros st1 S1. unfold step_wait. apply does_get. rewrite (same_process _ _ S1). apply does_try. change ([?a; ?b]) with ([a] ++ [b] ++ []). eapply does_bind; [now apply does_event|]. intros st2 _. cbv beta iota. eapply does_bind; [now apply does_unit|intros; apply does_ret].
  Qed.
  Lemma instr_does prefix ip st : answers (if dis then CDisassemble (g_process st) else CDumpCode (g_process st) None None false) (if dis then AInt ip else AUnit) ->
    does (displayInstr dis env (T prefix)) st (shows_code dis st prefix ip) (Ret tt).
  Proof.
    intros H. unfold displayInstr, shows_code. apply does_get. unfold on_ptrace_error. apply does_try. destruct dis; [|now apply does_unit]. change ([?a; ?b]) with ([a] ++ [b]). eapply does_bind; [now apply does_int|]. intros; apply does_log.
  Qed.
  (** step over an instruction of n bytes *)
  Lemma step_does st ip shown n m bp ev : dis = true -> answers (CDisassemble (g_process st)) (AInt shown) -> answers (CGetIP (g_process st)) (AInt ip) -> answers (CInstrSize (g_process st) ip) (AInt n) -> n <> 0 ->
    answers (CInstrSize (g_process st) (ip + n)) (AInt m) -> answers (CCreateBreakpoint (g_process st) (ip + n) (Some m)) (AObj (Some bp)) ->
    answers (CCont (g_process st) 0) AUnit -> answers (CWait (g_process st) 5) (AEvent ev) -> answers (CDesinstall bp true) AUnit ->
    does (run (dispatch (T "step"))) st (shows_code dis st "Execute" shown ++ [(CGetIP (g_process st), AInt ip)] ++ asks_size dis st ip (Some n) ++ runs_to dis st (ip + n) m bp ev) (Ret None).
  Proof.
    intros Hd H0 H1 H2 Hn H3 H4 H5 H6 H7. change (run (dispatch (T "step"))) with (step p dis env false None). unfold step.
    eapply does_bind; [apply instr_does; rewrite Hd; exact H0|]. intros st1 S1. cbn [negb]. apply does_get. rewrite (same_process _ _ S1).
    eapply does_bind; [now apply does_int|]. intros st2 S2. assert (g_process st2 = g_process st) as E2 by (rewrite (same_process _ _ S2); now apply same_process).
    eapply does_bind. { eapply does_app; [apply size_does; intros _; rewrite E2; exact H2|]. unfold asks_size. now rewrite E2. }
    intros st3 S3. assert (g_process st3 = g_process st) as E3 by (rewrite (same_process _ _ S3); exact E2). unfold size_of at 1. rewrite Hd at 1. cbv beta iota. replace (n =? 0) with false by blia.
    eapply does_app; [apply (step_to (ip + n) m st3 bp ev); rewrite ?E3; auto; unfold size_of; rewrite Hd; exact H4|]. unfold runs_to, asks_size, size_of. now rewrite E3.
  Qed.
  (** without a disassembler the size is unknown *)
  Lemma step_unknown st ip : dis = false -> answers (CDumpCode (g_process st) None None false) AUnit -> answers (CGetIP (g_process st)) (AInt ip) ->
    does (run (dispatch (T "step"))) st [(CDumpCode (g_process st) None None false, AUnit); (CGetIP (g_process st), AInt ip)] (Ret (Some (MText (T "Unable to read instruction size at " ++ formatAddress p ip)))).
  Proof.
    intros Hd H0 H1. change (run (dispatch (T "step"))) with (step p dis env false None). unfold step. change ([?a; ?b]) with ([a] ++ [b] ++ []).
    eapply does_bind. { eapply does_app; [apply (instr_does "Execute" 0); rewrite Hd; exact H0|]. unfold shows_code. now rewrite Hd. }
    intros st1 S1. cbn [negb]. apply does_get. rewrite (same_process _ _ S1). eapply does_bind; [now apply does_int|]. intros st2 S2. unfold readInstrSize. rewrite Hd. cbn [negb]. change ([] ++ ?l) with l.
    apply (does_bind (gret None) _ _ [] [] None); [apply does_ret|]. intros; apply does_ret.
  Qed.
  Lemma stepi_does st shown ev : answers (if dis then CDisassemble (g_process st) else CDumpCode (g_process st) None None false) (if dis then AInt shown else AUnit) -> answers (CStep (g_process st)) AUnit -> answers (CWait (g_process st) 5) (AEvent ev) ->
    does (run (dispatch (T "stepi"))) st (shows_code dis st "Execute" shown ++ [(CStep (g_process st), AUnit); (CWait (g_process st) 5, AEvent ev)]) (Ret None).
  Proof.
    intros H0 H1 H2. change (run (dispatch (T "stepi"))) with (step p dis env true None). unfold step.
    eapply does_bind; [now apply instr_does|]. intros st1 S1. cbn [negb]. apply does_get. rewrite (same_process _ _ S1). change ([?a; ?b]) with ([a] ++ [b]).
    eapply does_bind; [now apply does_unit|]. intros st2 S2. unfold step_wait. apply does_get. rewrite (same_process _ _ S2), (same_process _ _ S1). apply does_try.
    eapply does_app; [eapply does_bind; [now apply does_event|intros; apply does_ret]|reflexivity].
  Qed.
  Lemma until_does t a n st bp ev shown : parse st t = Ok a -> (dis = true -> answers (CInstrSize (g_process st) a) (AInt n)) -> answers (CCreateBreakpoint (g_process st) a (size_of dis n)) (AObj (Some bp)) ->
    answers (CCont (g_process st) 0) AUnit -> answers (CWait (g_process st) 5) (AEvent ev) -> answers (CDesinstall bp true) AUnit ->
    answers (if dis then CDisassemble (g_process st) else CDumpCode (g_process st) None None false) (if dis then AInt shown else AUnit) ->
    does (run (dispatch (T "until " ++ t))) st (runs_to dis st a n bp ev ++ shows_code dis st "Current" shown) (Ret None).
  Proof.
    intros Hp Hs H1 H2 H3 H4 H5. apply does_parse with (v := a); [exact Hp|]. eapply does_bind; [unfold step; apply (does_bind (gret tt) _ _ [] _ tt); [apply does_ret|]; intros st1 S1; cbn [negb]|].
    - eapply does_app; [apply (step_to a n st1 bp ev); rewrite ?(same_process _ _ S1); auto|]. unfold runs_to, asks_size. now rewrite (same_process _ _ S1).
    - intros st1 S1. cbv beta iota. eapply does_app; [eapply does_bind; [apply (instr_does "Current" shown); rewrite (same_process _ _ S1); exact H5|intros; apply does_ret]|]. rewrite app_nil_r. unfold shows_code. now rewrite (same_process _ _ S1).
  Qed.
  Lemma sys_does st ev t : answers (CSyscall (g_process st)) AUnit -> answers (CWaitSyscall (g_process st)) (AEvent ev) -> answers (CSyscallEvent (g_process st)) (AText t) ->
    does (run (dispatch (T "sys"))) st [(CSyscall (g_process st), AUnit); (CWaitSyscall (g_process st), AEvent ev); (CSyscallEvent (g_process st), AText t); says t] (Ret None).
  Proof.
    intros H1 H2 H3. change (run (dispatch (T "sys"))) with (syscallTrace env). unfold syscallTrace. apply does_get. change ([?a; ?b; ?c; ?d]) with ([a] ++ [b] ++ [c] ++ [d] ++ []).
    eapply does_bind; [now apply does_unit|]. intros st1 _. eapply does_bind; [now apply does_event|]. intros st2 _. eapply does_bind; [apply does_ask; [exact H3|discriminate]|]. intros st3 _. cbv beta iota. eapply does_bind; [apply does_log|intros; apply does_ret].
  Qed.
  (** attach: the new process becomes the current one *)
  Lemma attach_does t pid st q : parse st t = Ok pid -> answers (CAddProcess pid) (AObj (Some q)) -> q <> g_process st ->
    does_and_switches (run (dispatch (T "attach " ++ t))) st [(CAddProcess pid, AObj (Some q)); line (LSwitch q)] q (Ret None).
  Proof.
    intros Hp H Hq. exists (set_process q (push (CLog (LSwitch q)) AUnit (push (CAddProcess pid) (AObj (Some q)) st))). split; [|repeat split].
    change (run (dispatch (T "attach " ++ t))) with (attachProcess p eval env t). unfold attachProcess. erewrite or_message_ok by (rewrite parse_run, Hp; reflexivity).
    unfold ask_new, switchProcess, glog, gmodify, gget, gbind, ask. cbv zeta. rewrite !H. cbn [gret g_process push]. destruct (Nat.eqb_spec (g_process st) q) as [<-|]; [congruence|reflexivity].
  Qed.

  (** ** cont at a breakpoint *)
  Lemma cont_stopped st st1 l q ip bp : answers CProcesses (AProcs l) -> cont_loop env 0 l (push CProcesses (AProcs l) st) = (st1, Ret tt) ->
    answers CWaitSignals (AEvent (ProcessSignal 5 q)) -> answers (CGetIP (g_process st1)) (AInt ip) ->
    answers (CFindBreakpoint (g_process st1) (if is_powerpc (p_cpu p) then ip else ip - 1)) (AObj bp) -> (forall b, bp = Some b -> answers (CDesinstall b true) AUnit) ->
    exists st2, run (dispatch (T "cont")) st = (st2, Ret None) /\ same st1 st2 /\
      g_hist st2 = rev ([(CWaitSignals, AEvent (ProcessSignal 5 q)); (CGetIP (g_process st1), AInt ip); (CFindBreakpoint (g_process st1) (if is_powerpc (p_cpu p) then ip else ip - 1), AObj bp)] ++
        match bp with Some b => [line (LStopped b); (CDesinstall b true, AUnit)] | None => [] end) ++ g_hist st1.
  Proof.
    intros H1 H2 H3 H4 H5 H6. change (run (dispatch (T "cont"))) with (gdb_cont p env 0). unfold gdb_cont.
    assert (does (ev <-- ask_event env CWaitSignals;
      match ev with
      | ProcessSignal s id =>
        if s =? SIGTRAP then
          st <-- gget;
          ip <-- ask_int env (CGetIP (g_process st));
          let ip := if is_powerpc (p_cpu p) then ip else ip - 1 in
          bp <-- ask_obj env (CFindBreakpoint (g_process st) ip);
          match bp with
          | Some bp => _ <-- glog (LStopped bp); _ <-- ask_unit env (CDesinstall bp true); gret None
          | None => gret None
          end
        else _ <-- processSignal env s id; gret None
      | _ => ill
      end) st1 ([(CWaitSignals, AEvent (ProcessSignal 5 q)); (CGetIP (g_process st1), AInt ip); (CFindBreakpoint (g_process st1) (if is_powerpc (p_cpu p) then ip else ip - 1), AObj bp)] ++
        match bp with Some b => [line (LStopped b); (CDesinstall b true, AUnit)] | None => [] end) (Ret (@None emsg))) as (st2 & E & Hh & Hs).
    { cbn [app]. change (?a :: ?b :: ?c :: ?d) with ([a] ++ [b] ++ [c] ++ d). eapply does_bind; [now apply does_event|]. intros st2 S2. change (5 =? SIGTRAP) with true. cbv iota. apply does_get.
      rewrite (same_process _ _ S2). eapply does_bind; [now apply does_int|]. intros st3 _. cbv zeta. eapply does_bind; [now apply does_obj|]. intros st4 _.
      destruct bp as [b|]; [|apply does_ret]. change ([?a; ?b]) with ([a] ++ [b] ++ []). eapply does_bind; [apply does_log|]. intros st5 _. eapply does_bind; [apply does_unit; auto|intros; apply does_ret]. }
    exists st2. split; [|split; [exact Hs|exact Hh]]. rewrite <- E. unfold gbind at 1. unfold ask_procs, gbind at 1, ask. cbv zeta. rewrite !H1. cbn [gret]. unfold gbind at 1. rewrite H2. reflexivity.
  Qed.

  (** ** The end of the session *)
  Lemma eof_does st : answers CEcho (ABool false) -> answers CInput AEof -> does (mainLoop p ns dis eval env) st [(CEcho, ABool false); (CInput, AEof)] (Ret true).
  Proof.
    intros H1 H2. exists (push CInput AEof (push CEcho (ABool false) st)). split; [|repeat split]. unfold mainLoop, read_input, restoreTerminal, ask_bool, gtry, gbind, ask. cbv zeta. rewrite !H1. cbn [gret]. rewrite !H2. reflexivity.
  Qed.
  (** Ctrl-C while a line is being typed *)
  Lemma user_interrupt st : answers CEcho (ABool false) -> answers CInput (ARaise (XErr EKeyboardInterrupt)) ->
    mainLoop p ns dis eval env st = (_ <-- interrupt env; gret false) (push (CLog (LText (T "User interrupt!"))) AUnit (push CInput (ARaise (XErr EKeyboardInterrupt)) (push CEcho (ABool false) st))).
  Proof.
    intros H1 H2. unfold mainLoop, read_input, restoreTerminal, ask_bool, gtry, gbind at 1 2 3 4 5, ask. cbv zeta. rewrite !H1. cbn [gret]. rewrite !H2. reflexivity.
  Qed.
  (** The program cannot be started. *)
  Lemma start_fails fuel st : answers CStart (ARaise (XErr EChildError)) -> does (runDebugger p ns dis eval env fuel) st [(CStart, ARaise (XErr EChildError)); says (T "Unable to create child process")] (Ret tt).
  Proof.
    intros H. exists (push (CLog (LText (T "Unable to create child process"))) AUnit (push CStart (ARaise (XErr EChildError)) st)). split; [|repeat split]. unfold runDebugger, ask_obj, gtry, gbind, ask. cbv zeta. rewrite !H. reflexivity.
  Qed.
End Commands.
