From Coq Require Import ZArith List Ascii String Bool Lia Arith.
From Verif Require Import PyBase PyFacts PyInt PyIntFacts Platform IntModel ToolsModel SigModel DbgModel MapModel TraceModel PyEval ExprModel GdbModel GdbSpec GdbProofs GdbProofs2 GdbProofs3.
Import ListNotations.
Open Scope Z_scope.

(** ** Continuing *)
Section Cont.
  Context (p : platform) (ns : namespace) (eval : text -> res pyval) (env : list (gcall * ans) -> gcall -> ans).
  Lemma bind_ok {A B} (m : GM A) (f : A -> GM B) st st' b : gbind m f st = (st', Ret b) -> exists st1 a, m st = (st1, Ret a) /\ f a st1 = (st', Ret b).
  Proof. unfold gbind. destruct (m st) as [st1 [a|x]]; [eauto|discriminate]. Qed.
  Lemma ask_unit_ok c st st' u : ask_unit env c st = (st', Ret u) -> st' = push c AUnit st.
  Proof. unfold ask_unit, gbind, ask, ill, graise, gret. destruct (env (g_hist st) c); intros H; congruence. Qed.
  Lemma continue_ok id s st st' u : sinv false st -> continueProcess env id s st = (st', Ret u) ->
    let sig := if s =? 0 then pending id (g_hist st) else s in
    continued (g_hist st') = continued (g_hist st) ++ [(id, sig)] /\ g_process st' = g_process st /\ (forall q, q <> id -> pending q (g_hist st') = pending q (g_hist st)) /\ pending id (g_hist st') = 0.
  Proof.
    intros [_ Hi] H. cbv zeta. unfold continueProcess in H. apply bind_ok in H as (st1 & a & [= <- <-] & H). assert ((match dget Nat.eqb id (g_last st) with Some s => s | None => 0 end) = pending id (g_hist st)) as E.
    { destruct (Hi id) as [E|[E _]]; [exact E|discriminate]. }
    rewrite E in H. set (sig := if s =? 0 then _ else _) in *. destruct (Z.eqb_spec sig 0) as [Es|Es]; cbn [negb] in H.
    - apply ask_unit_ok in H. subst st'. cbn [push g_hist g_process continued pending]. split; [now rewrite Es|]. split; [reflexivity|]. change (0 =? 0) with true. cbn [negb]. split; [intros q _; now rewrite andb_false_r|]. rewrite andb_false_r.
      unfold sig in Es. destruct (Z.eqb_spec s 0); [exact Es|]. contradiction.
    - apply bind_ok in H as (st1 & a & H1 & H). injection H1 as <- <-. apply bind_ok in H as (st2 & a & H1 & H). apply ask_unit_ok in H1. subst st2. unfold gmodify in H. assert (st' = del_last id (push (CCont id sig) AUnit (push (CLog (LSend sig id)) AUnit st))) as E' by congruence. subst st'.
      assert (forall st, g_hist (del_last id st) = g_hist st) as Eh by (intros st0; unfold del_last; destruct (dmem _ _ _); reflexivity).
      assert (forall st, g_process (del_last id st) = g_process st) as Ep by (intros st0; unfold del_last; destruct (dmem _ _ _); reflexivity).
      rewrite Eh, Ep. cbn [push g_hist g_process continued pending]. apply Z.eqb_neq in Es. rewrite Es. cbn [negb]. split; [reflexivity|]. split; [reflexivity|]. split.
      + intros q Hq. destruct (Nat.eqb_spec id q); [congruence|reflexivity].
      + now rewrite Nat.eqb_refl.
  Qed.
  Lemma sinv_continue id s st st' u : sinv false st -> continueProcess env id s st = (st', Ret u) -> sinv false st'.
  Proof. intros Hi H. pose proof (keeps_continue false env id s st Hi) as K. now rewrite H in K. Qed.
  Lemma cont_loop_ok s l : NoDup l -> forall st st', sinv false st -> cont_loop env s l st = (st', Ret tt) ->
    continued (g_hist st') = continued (g_hist st) ++ map (fun q => (q, chosen st s q)) l /\ g_process st' = g_process st /\ (forall q, pending q (g_hist st') = if in_dec Nat.eq_dec q l then 0 else pending q (g_hist st)) /\ sinv false st'.
  Proof.
    unfold cont_loop. induction l as [|id l IH]; intros Hn st st' Hi H.
    - cbn in H. injection H as <-. rewrite app_nil_r. repeat split; auto; apply Hi.
    - cbn [giter] in H. inversion Hn as [|? ? Hid Hn']; subst. apply bind_ok in H as (st1 & a & H1 & H). apply bind_ok in H1 as (st2 & a2 & H2 & H1). apply ask_unit_ok in H2. subst st2. apply bind_ok in H1 as (st2 & a3 & [= <- <-] & H1).
      assert (sinv false (push (CClear id) AUnit st)) as Hi1 by (apply sinv_push; [exact I|exact Hi]). pose proof (sinv_continue _ _ _ _ _ Hi1 H1) as Hi2. apply continue_ok in H1; [|exact Hi1]. cbv zeta in H1. cbn [push g_hist g_process continued pending] in H1. destruct H1 as (C1 & C2 & C3 & C4).
      apply IH in H; [|exact Hn'|exact Hi2]. destruct H as (K1 & K2 & K3 & K4). split; [|split; [congruence|split; [|exact K4]]].
      + rewrite K1, C1, <- app_assoc. f_equal. cbn [map app]. f_equal.
        * f_equal. unfold chosen. destruct (Nat.eqb id (g_process st)); cbn [andb]; [|reflexivity]. destruct (Z.eqb_spec s 0); reflexivity.
        * apply map_ext_in. intros q Hq. f_equal. unfold chosen. rewrite C2. rewrite C3; [reflexivity|]. intros ->. contradiction.
      + intros q. rewrite K3. destruct (in_dec Nat.eq_dec q l) as [Hq|Hq].
        * destruct (in_dec Nat.eq_dec q (id :: l)) as [|Hx]; [reflexivity|]. exfalso. apply Hx. now right.
        * destruct (Nat.eq_dec q id) as [->|Hne]; [destruct (in_dec Nat.eq_dec id (id :: l)) as [|Hx]; [exact C4|exfalso; apply Hx; now left]|]. rewrite C3 by exact Hne.
          destruct (in_dec Nat.eq_dec q (id :: l)) as [[Hx|Hx]|]; [congruence|contradiction|reflexivity].
  Qed.
  (** Nothing else continues a process. *)
  Definition idle (c : gcall) : Prop := match c with CCont _ _ => False | _ => True end.
  Definition still {A} (m : GM A) : Prop := forall st, continued (g_hist (fst (m st))) = continued (g_hist st).
  Lemma still_bind {A B} (m : GM A) (f : A -> GM B) : still m -> (forall a, still (f a)) -> still (gbind m f).
  Proof. intros Hm Hf st. unfold gbind. specialize (Hm st). destruct (m st) as [st1 [a|x]]; [rewrite (Hf a st1); exact Hm|exact Hm]. Qed.
  Lemma still_ask c : idle c -> still (ask env c).
  Proof. intros Hq st. unfold ask. cbn [fst push g_hist]. now destruct c. Qed.
  Lemma still_log l : still (glog l).
  Proof. intros st. reflexivity. Qed.
  Lemma still_id {A} (f : gstate -> gstate) (o : gstate -> out A) : (forall st, g_hist (f st) = g_hist st) -> still (fun st => (f st, o st)).
  Proof. intros Hf st. cbn. now rewrite Hf. Qed.
  Ltac still :=
    repeat match goal with
    | |- still (gbind _ _) => apply still_bind; [|intros]
    | |- still (glog _) => apply still_log
    | |- still (ask _ _) => apply still_ask; exact I
    | |- still (gret _) => apply (still_id (fun st => st)); reflexivity
    | |- still (graise _) => apply (still_id (fun st => st)); reflexivity
    | |- still ill => apply (still_id (fun st => st)); reflexivity
    | |- still gget => apply (still_id (fun st => st)); reflexivity
    | |- still (gmodify _) => apply still_id; reflexivity
    | |- still (match ?x with _ => _ end) => destruct x
    end.
  Lemma gdb_cont_ok s st st' l m : env (g_hist st) CProcesses = AProcs l -> NoDup l -> sinv false st -> gdb_cont p env s st = (st', Ret m) ->
    continued (g_hist st') = continued (g_hist st) ++ map (fun q => (q, chosen st s q)) l.
  Proof.
    intros He Hn Hi H. unfold gdb_cont in H. apply bind_ok in H as (st1 & l' & H1 & H). rewrite (procs_run env st l He) in H1. assert (l' = l /\ st1 = push CProcesses (AProcs l) st) as [-> ->] by (split; congruence). clear H1.
    apply bind_ok in H as (st2 & [] & H1 & H). apply cont_loop_ok in H1; [|exact Hn|apply sinv_push; [exact I|exact Hi]]. destruct H1 as (K1 & _).
    match type of H with ?m st2 = _ => assert (still m) as Hs end.
    { unfold ask_event, ask_int, ask_obj, ask_unit, processSignal, switchProcess, ask_unit. still. }
    specialize (Hs st2). rewrite H in Hs. cbn [fst] in Hs. rewrite Hs, K1. reflexivity.
  Qed.
End Cont.

(** ** Command lines *)
Section Lines.
  Context (p : platform) (ns : namespace) (dis : bool) (eval : text -> res pyval) (env : list (gcall * ans) -> gcall -> ans).
  Notation exec := (execute p ns dis eval env).
  Notation exec_all := (execute_all p ns dis eval env).
  Lemma all_ok l st st' : succeed exec l st st' -> exec_all l st = (st', Ret true).
  Proof. induction 1 as [|c l st1 st2 st3 H _ IH]; [reflexivity|]. cbn [execute_all]. unfold gbind, gtry. rewrite H. exact IH. Qed.
  Lemma all_app before after st st' : succeed exec before st st' -> exec_all (before ++ after) st = exec_all after st'.
  Proof. induction 1 as [|c l st1 st2 st3 H _ IH]; [reflexivity|]. cbn [execute_all app]. unfold gbind at 1, gtry at 1. rewrite H. exact IH. Qed.
  Lemma all_fail before c after st st1 st2 : succeed exec before st st1 -> exec (strip c) st1 = (st2, Ret false) -> exec_all (before ++ c :: after) st = (st2, Ret false).
  Proof. intros H1 H2. rewrite (all_app _ _ _ _ H1). cbn [execute_all]. unfold gbind at 1, gtry at 1. now rewrite H2. Qed.
  Lemma all_raise before c after st st1 st2 x : succeed exec before st st1 -> exec (strip c) st1 = (st2, Raise x) ->
    exec_all (before ++ c :: after) st = (if is_exception x then push (CLog (LCommandError x)) AUnit st2 else st2, Raise x).
  Proof. intros H1 H2. rewrite (all_app _ _ _ _ H1). cbn [execute_all]. unfold gbind at 1, gtry at 1. rewrite H2. now destruct (is_exception x). Qed.
  Lemma previous_keeps x c : keeps (fun st => g_previous st = x) (exec c).
  Proof.
    apply keeps_execute; auto.
    - intros id s st H. unfold continueProcess. unfold gbind at 1, gget. destruct (negb _).
      + unfold gbind, glog, ask_unit, gbind, ask. cbn. destruct (env _ _); cbn; try exact H. unfold del_last. cbn. now destruct (dmem _ _ _).
      + unfold ask_unit, gbind, ask. cbn. destruct (env _ _); exact H.
    - left. intros st id H. unfold del_last. now destruct (dmem _ _ _).
  Qed.
  Lemma previous_exec c st st' o : exec c st = (st', o) -> g_previous st' = g_previous st.
  Proof. intros H. pose proof (previous_keeps (g_previous st) c st eq_refl) as K. now rewrite H in K. Qed.
  Lemma previous_succeed l st st' : succeed exec l st st' -> g_previous st' = g_previous st.
  Proof. induction 1 as [|c l st1 st2 st3 H _ IH]; [reflexivity|]. rewrite IH. eapply previous_exec. exact H. Qed.
  Notation line := (run_line p ns dis eval env).
  Lemma line_ok t st st' : t <> T "quit" -> succeed exec (split_char ";"%char t) (set_previous None st) st' -> line t st = (set_previous (Some t) st', Ret false).
  Proof. intros Hq H. unfold run_line. unfold gbind at 1, gmodify at 1. apply text_eqb_neq in Hq. rewrite Hq. unfold gtry, gbind at 1. rewrite (all_ok _ _ _ H). reflexivity. Qed.
  Lemma line_fail t st before c after st1 st2 : t <> T "quit" -> split_char ";"%char t = before ++ c :: after -> succeed exec before (set_previous None st) st1 -> exec (strip c) st1 = (st2, Ret false) ->
    line t st = (st2, Ret false) /\ g_previous st2 = None.
  Proof.
    intros Hq E H1 H2. split.
    - unfold run_line. unfold gbind at 1, gmodify at 1. apply text_eqb_neq in Hq. rewrite Hq. rewrite E. unfold gtry, gbind at 1. rewrite (all_fail _ _ _ _ _ _ H1 H2). reflexivity.
    - rewrite (previous_exec _ _ _ _ H2), (previous_succeed _ _ _ H1). reflexivity.
  Qed.
  Lemma line_raise t st before c after st1 st2 x : t <> T "quit" -> split_char ";"%char t = before ++ c :: after -> succeed exec before (set_previous None st) st1 -> exec (strip c) st1 = (st2, Raise x) ->
    line t st = (_ <-- handle env x; gret false) (if is_exception x then push (CLog (LCommandError x)) AUnit st2 else st2).
  Proof.
    intros Hq E H1 H2. unfold run_line. unfold gbind at 1, gmodify at 1. apply text_eqb_neq in Hq. rewrite Hq. rewrite E. unfold gtry, gbind at 1. rewrite (all_raise _ _ _ _ _ _ _ H1 H2). reflexivity.
  Qed.
  Notation loop := (mainLoop p ns dis eval env).
  Notation reads := (reads env).
  Lemma input_run st t : reads st t -> read_input env st = (after_input st t, Ret (ILine (strip t))).
  Proof.
    intros [H1 H2]. unfold read_input, gtry, restoreTerminal, ask_bool. unfold gbind at 1. unfold gbind at 1. unfold gbind at 1. unfold ask at 1. rewrite H1. cbn [gret]. unfold gbind, ask. cbn [push g_hist]. rewrite H2. reflexivity.
  Qed.
  Lemma loop_line st t c l : reads st t -> strip t = c :: l -> loop st = line (c :: l) (after_input st t).
  Proof. intros H E. unfold mainLoop, gbind at 1. rewrite (input_run _ _ H), E. reflexivity. Qed.
  Lemma loop_empty st t : reads st t -> strip t = [] -> loop st = match g_previous st with Some (c :: l) => line (c :: l) (after_input st t) | _ => (after_input st t, Ret false) end.
  Proof. intros H E. unfold mainLoop, gbind at 1. rewrite (input_run _ _ H), E. unfold gbind at 1, gget. cbn [after_input push g_previous]. destruct (g_previous st) as [[|c l]|]; reflexivity. Qed.
  Lemma line_quit st : line (T "quit") st = (set_previous None st, Ret true).
  Proof. unfold run_line, gbind at 1, gmodify at 1. rewrite text_eqb_refl. reflexivity. Qed.
End Lines.

(** ** Steps *)
Section Steps.
  Context (p : platform) (ns : namespace) (dis : bool) (eval : text -> res pyval) (env : list (gcall * ans) -> gcall -> ans).
  Definition since (h0 h : list (gcall * ans)) (new : list (gcall * ans)) : Prop := h = new ++ h0.
  Lemma wait_removes bp st : exists set_ip a h, g_hist (fst (step_wait env (Some bp) st)) = (CDesinstall bp set_ip, a) :: h.
  Proof.
    unfold step_wait. unfold gbind at 1, gget. unfold gtry.
    match goal with |- context [match ?m with _ => _ end] => destruct m as [st1 [a|x]] eqn:E end.
    - apply bind_ok in E as (st2 & ev & _ & E). apply bind_ok in E as (st3 & [] & E & E2). apply ask_unit_ok in E. injection E2 as <- _. subst st3. eexists _, _, _. reflexivity.
    - unfold gbind, ask_unit, gbind, ask. destruct (env (g_hist st1) (CDesinstall bp false)); cbn; eexists _, _, _; reflexivity.
  Qed.
  Lemma break_ok a st st' bp : step_break dis env a st = (st', Ret bp) -> exists st1 size, readInstrSize dis env a st = (st1, Ret size) /\ st' = push (CCont (g_process st1) 0) AUnit (push (CCreateBreakpoint (g_process st1) a size) (AObj (Some bp)) st1).
  Proof.
    intros H. unfold step_break in H. apply bind_ok in H as (st1 & size & H1 & H). apply bind_ok in H as (st2 & st2' & [= <- <-] & H). apply bind_ok in H as (st2 & b & H2 & H). exists st1, size. split; [exact H1|].
    unfold ask_new, gbind, ask in H2. destruct (env (g_hist st1) (CCreateBreakpoint (g_process st1) a size)) as [| | | | | | |[o|]| | |]; cbn in H2; try discriminate. injection H2 as <- <-.
    apply bind_ok in H as (st3 & [] & H3 & H). apply ask_unit_ok in H3. injection H as <- <-. exact H3.
  Qed.
End Steps.
(** ** The end of the program *)
Lemma main_quits p ns dis eval env fuel st : gone (snd (gdb_main p ns dis eval env fuel st)) \/ exists a, In (CQuit, a) (g_hist (fst (gdb_main p ns dis eval env fuel st))).
Proof.
  unfold gdb_main. set (m := gtry _ _). assert ((exists st1, m st = (st1, Ret tt)) \/ (exists st1 x, m st = (st1, Raise x) /\ gone (Raise x))) as [(st1 & E)|(st1 & x & E & Hg)].
  { unfold m, gtry. destruct (runDebugger p ns dis eval env fuel st) as [st1 [[]|x]]; [eauto|]. destruct x as [[]|]; try (left; eexists; reflexivity); right; do 2 eexists; split; try reflexivity; exact I. }
  - right. unfold gbind at 1. rewrite E. unfold gbind at 1, ask_unit, gbind at 1, ask. destruct (env (g_hist st1) CQuit) eqn:Ea; cbn [gret graise ill]; try (eexists; cbn; left; reflexivity).
    exists AUnit. unfold gbind at 1, glog. unfold restoreTerminal, ask_bool. unfold gbind at 1, gbind at 1, ask. destruct (env _ CEcho); cbn; try (right; right; left; reflexivity). destruct b; cbn; [right|]; right; right; left; reflexivity.
  - left. unfold gbind. rewrite E. exact Hg.
Qed.
Lemma main_no_raise p ns dis eval env fuel st : (forall h, env h CQuit = AUnit) -> (forall h, exists b, env h CEcho = ABool b) ->
  gone (snd (gdb_main p ns dis eval env fuel st)) \/ exists st', gdb_main p ns dis eval env fuel st = (st', Ret tt).
Proof.
  intros H1 H2. unfold gdb_main. set (m := gtry _ _). assert ((exists st1, m st = (st1, Ret tt)) \/ (exists st1 x, m st = (st1, Raise x) /\ gone (Raise x))) as [(st1 & E)|(st1 & x & E & Hg)].
  { unfold m, gtry. destruct (runDebugger p ns dis eval env fuel st) as [st1 [[]|x]]; [eauto|]. destruct x as [[]|]; try (left; eexists; reflexivity); right; do 2 eexists; split; try reflexivity; exact I. }
  - right. unfold gbind at 1. rewrite E. unfold gbind at 1, ask_unit, gbind at 1, ask. rewrite H1. cbn [gret]. unfold gbind at 1, glog. unfold restoreTerminal, ask_bool. unfold gbind at 1, gbind at 1, ask. match goal with |- context [env ?h CEcho] => destruct (H2 h) as (b & ->) end. cbn. destruct b; eexists; reflexivity.
  - left. unfold gbind. rewrite E. exact Hg.
Qed.
(** exit() is called only where the environment does. *)
Lemma main_session p ns dis eval env fuel st x : snd (gdb_main p ns dis eval env fuel st) = Raise x -> (forall h, env h CQuit = AUnit) -> (forall h, exists b, env h CEcho = ABool b) -> snd (runDebugger p ns dis eval env fuel st) = Raise x.
Proof.
  intros H H1 H2. revert H. unfold gdb_main. unfold gbind at 1, gtry. destruct (runDebugger p ns dis eval env fuel st) as [st1 [[]|y]] eqn:Er; cbn [snd].
  - unfold gbind at 1, ask_unit, gbind at 1, ask. rewrite H1. cbn [gret]. unfold gbind at 1, glog. unfold restoreTerminal, ask_bool. unfold gbind at 1, gbind at 1, ask. match goal with |- context [env ?h CEcho] => destruct (H2 h) as (b & ->) end. destruct b; discriminate.
  - destruct y as [[]|]; cbn [is_exception glog graise snd];
      try (unfold gbind at 1, ask_unit, gbind at 1, ask; rewrite H1; cbn [gret]; unfold gbind at 1, glog; unfold restoreTerminal, ask_bool; unfold gbind at 1, gbind at 1, ask; match goal with |- context [env ?h CEcho] => destruct (H2 h) as (b & ->) end; destruct b; discriminate); auto.
Qed.
